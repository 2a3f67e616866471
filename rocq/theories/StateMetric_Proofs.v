(** * Proofs for the state metrics. *)

From Coq Require Import List ZArith QArith Qabs Qfield Bool Arith Lia Lqa Permutation.
From Coq Require Import ZifyBool ZifyNat.
From Verif Require Import Prelude PreludeFacts SpecBase SpecBaseFacts Parse_Model Parse_Spec Parse_DurProofs Parse_TpmProofs Appliance_Model
  LoadMetric_Model LoadMetric_Proofs StateMetric_Model StateMetric_Spec StateMetric_DurProofs.
Import ListNotations.

Open Scope nat_scope.

(** ** Time in the states *)
Lemma cells_app : forall s a b, cells_in s (a ++ b) = cells_in s a + cells_in s b.
Proof. intros s a b. induction a as [|x a IH]; [reflexivity|]. cbn [List.app cells_in]. rewrite IH. lia. Qed.

Lemma time_app : forall s a b, time_in s (a ++ b) = time_in s a + time_in s b.
Proof. intros s a b. induction a as [|[l d] a IH]; [reflexivity|]. cbn [List.app time_in]. rewrite IH. lia. Qed.

Lemma time_perm : forall s a b, Permutation a b -> time_in s a = time_in s b.
Proof. intros s a b P. induction P as [|[l d] a b P IH|[l d] [l' d'] a|a b c P1 IH1 P2 IH2]; cbn [time_in]; lia. Qed.

Lemma cells_repeat : forall s x n, cells_in s (repeat x n) = if Nat.eqb s x then n else 0.
Proof. intros s x n. induction n as [|n IH]; cbn [repeat cells_in]; [destruct (s =? x); reflexivity|]. rewrite IH. destruct (s =? x); lia. Qed.

Lemma cells_unroll : forall s runs, cells_in s (unroll runs) = time_in s runs.
Proof. intros s runs. induction runs as [|[l d] t IH]; [reflexivity|]. rewrite unroll_cons, cells_app, cells_repeat, IH. reflexivity. Qed.

Lemma runs_time : forall s r runs, runs_of r runs -> time_in s runs = cells_in s r.
Proof.
  intros s r runs [(x & _ & A & ->)|(_ & (a & b & -> & E) & _)].
  - assert (E : r = repeat x (length r)). { clear - A. induction r as [|y r IH]; [reflexivity|]. cbn [length repeat]. rewrite (A y) by now left. f_equal. apply IH. intros; apply A; now right. }
    rewrite E at 2. rewrite cells_repeat. cbn [time_in]. lia.
  - rewrite <- cells_unroll, E, !cells_app. lia.
Qed.

Lemma all_runs_time : forall s rs rss, Forall2 runs_of rs rss -> time_in s (concat rss) = cells_in s (concat rs).
Proof. intros s rs rss F. induction F as [|r runs rs rss P F IH]; [reflexivity|]. cbn [concat]. rewrite time_app, cells_app, IH, (runs_time s r runs P). reflexivity. Qed.

Lemma cells_pos : forall s r, 0 < cells_in s r <-> In s r.
Proof.
  intros s r. induction r as [|x r IH]; cbn [cells_in]; [split; [lia|intros []]|]. destruct (Nat.eqb_spec s x) as [->|N].
  - split; [intros _; now left|lia].
  - cbn [Nat.add]. rewrite IH. split; [now right|]. intros [E|H]; [congruence|exact H].
Qed.

Lemma runs_pos : forall r runs p, runs_of r runs -> In p runs -> 0 < snd p <= length r.
Proof.
  intros r runs p [(x & N & _ & ->)|(_ & (a & b & -> & E) & _ & P)] H.
  - destruct H as [<-|[]]. cbn [snd]. destruct r; [congruence|cbn; lia].
  - split; [apply P, H|]. assert (L : length (a ++ b) = length (unroll runs)) by (rewrite E, !app_length; lia). rewrite L, unroll_length. clear - H.
    induction runs as [|q t IH]; [destruct H|]. cbn [run_total]. destruct H as [->|H]; [lia|]. specialize (IH H). lia.
Qed.

Lemma all_runs_pos : forall w rs rss p, boxed w rs -> Forall2 runs_of rs rss -> In p (concat rss) -> 0 < snd p <= w.
Proof.
  intros w rs rss p H F I. apply in_concat in I. destruct I as (runs & Hr & Hp). revert H Hr. induction F as [|r q rs rss P F IH]; intros H Hr; [destruct Hr|].
  destruct Hr as [->|Hr]; [|apply IH; [intros x Hx; apply H; now right|exact Hr]]. pose proof (runs_pos r runs p P Hp). rewrite (H r (or_introl eq_refl)) in H0. exact H0.
Qed.

Lemma time_list_sum : forall s runs, time_in s runs = list_sum (durations_of s runs).
Proof.
  intros s runs. induction runs as [|[l d] t IH]; [reflexivity|]. unfold durations_of in *. cbn [time_in filter fst]. destruct (s =? l); cbn [map list_sum fold_right snd]; rewrite IH; reflexivity.
Qed.

(** ** The dictionary *)
Lemma compress_durations : forall s ls ds, length ls = length ds ->
  compress (map (Nat.eqb s) ls) (map Z.of_nat ds) = map Z.of_nat (durations_of s (combine ls ds)).
Proof.
  intros s ls. induction ls as [|l ls IH]; intros [|d ds] H; try discriminate; [reflexivity|]. injection H as H. cbn [map compress combine]. unfold durations_of in *. cbn [filter fst].
  rewrite (IH ds H). destruct (s =? l); reflexivity.
Qed.

Lemma dget_map : forall B (f : nat -> B) l s, (In s l -> dget Nat.eqb (map (fun k => (k, f k)) l) s = Some (f s)) /\ (~ In s l -> dget Nat.eqb (map (fun k => (k, f k)) l) s = None).
Proof.
  intros B f l s. induction l as [|k l [IH1 IH2]]; [split; [intros []|reflexivity]|]. cbn [map dget]. destruct (Nat.eqb_spec s k) as [->|N].
  - split; [reflexivity|]. intro H. exfalso. apply H. now left.
  - split; intro H; [apply IH1; destruct H; [congruence|assumption]|apply IH2; intro; apply H; now right].
Qed.

Lemma durations_perm : forall s a b, Permutation a b -> Permutation (durations_of s a) (durations_of s b).
Proof.
  intros s a b P. unfold durations_of. apply Permutation_map. induction P as [|p a b P IH|p q a|a b c P1 IH1 P2 IH2]; cbn [filter].
  - constructor.
  - destruct (s =? fst p); [constructor|]; exact IH.
  - destruct (s =? fst p), (s =? fst q); try reflexivity; apply perm_swap.
  - etransitivity; eassumption.
Qed.

Lemma label_iff : forall w rs rss ls ds s, boxed w rs -> Forall2 runs_of rs rss -> length ls = length ds -> Permutation (combine ls ds) (concat rss) -> (In s ls <-> In s (concat rs)).
Proof.
  intros w rs rss ls ds s H F L P. rewrite <- (cells_pos s (concat rs)), <- (all_runs_time s rs rss F), <- (time_perm s _ _ P).
  assert (Pos : forall p, In p (combine ls ds) -> 0 < snd p). { intros p Hp. apply (Permutation_in _ P) in Hp. apply (all_runs_pos w rs rss p H F Hp). }
  clear - L Pos. revert ds L Pos. induction ls as [|l ls IH]; intros [|d ds] L Pos; try discriminate; [cbn; split; [intros []|lia]|]. injection L as L. cbn [combine time_in] in *.
  specialize (IH ds L ltac:(intros; apply Pos; now right)). pose proof (Pos (l, d) (or_introl eq_refl)). cbn [snd] in *. destruct (Nat.eqb_spec s l) as [->|N].
  - split; [lia|intros _; now left].
  - cbn [Nat.add]. rewrite <- IH. split; [intros [E|?]; [congruence|assumption]|now right].
Qed.

Lemma dict_main : forall w rs, 0 < w -> boxed w rs -> (exists r, In r rs /\ varies r) -> exists rss dict,
  get_durations_by_states (mkTable w rs) = Ok dict /\ Forall2 runs_of rs rss /\ map fst dict = uniq Nat.compare (map fst dict) /\
  (forall s, In s (map fst dict) <-> In s (concat rs)) /\
  (forall s, ~ In s (concat rs) -> dget Nat.eqb dict s = None) /\
  forall s, In s (concat rs) -> exists ds, dget Nat.eqb dict s = Some (map Z.of_nat ds) /\ Permutation ds (durations_of s (concat rss)).
Proof.
  intros w rs Hw H V. destruct (durations_main w rs Hw H V) as (rss & ds & ls & E & F & L & P). exists rss, (by_states (map Z.of_nat ds) ls).
  unfold get_durations_by_states. rewrite E. cbn [bind]. split; [reflexivity|]. split; [exact F|].
  pose proof (fun s => label_iff w rs rss ls ds s H F L P) as LI.
  assert (K : map fst (by_states (map Z.of_nat ds) ls) = uniq Nat.compare ls). { unfold by_states. rewrite map_map. cbn [fst]. apply map_id. }
  split.
  { rewrite K. symmetry. clear. assert (S := uniq_sorted nat_order ls). induction S as [|x l A S IH]; [reflexivity|]. unfold uniq in *. cbn [fold_right]. rewrite IH.
    destruct l as [|y l]; [reflexivity|]. cbn [uins]. rewrite (A y) by now left. reflexivity. }
  split; [intro s; rewrite K, (uniq_in nat_order); apply LI|]. split.
  - intros s N. apply (dget_map (list Z) (fun s => compress (map (Nat.eqb s) ls) (map Z.of_nat ds))). rewrite (uniq_in nat_order), LI. exact N.
  - intros s I. exists (durations_of s (combine ls ds)). rewrite <- (compress_durations s ls ds L). split; [|apply durations_perm, P].
    apply (dget_map (list Z) (fun s => compress (map (Nat.eqb s) ls) (map Z.of_nat ds))). rewrite (uniq_in nat_order), LI. exact I.
Qed.

(** ** Shares of the durations *)
Lemma share_perm : forall t a b, Permutation a b -> share t a = share t b.
Proof.
  intros t a b P. unfold share. assert (E : length (filter (fun d => d <=? t) a) = length (filter (fun d => d <=? t) b)).
  { induction P as [|p a b P IH|p q a|a b c P1 IH1 P2 IH2]; cbn [filter]; [reflexivity| | |congruence].
    - destruct (p <=? t); cbn [length]; rewrite IH; reflexivity.
    - destruct (p <=? t), (q <=? t); reflexivity. }
  rewrite E, (Permutation_length P). reflexivity.
Qed.

Lemma share_bounds : forall t ds, ds <> [] -> (0 <= share t ds <= 1)%Q.
Proof.
  intros t ds H. unfold share. assert (L : length (filter (fun d => d <=? t) ds) <= length ds).
  { clear. induction ds as [|d ds IH]; cbn [filter length]; [lia|]. destruct (d <=? t); cbn [length]; lia. }
  assert (P : (0 < inject_Z (Z.of_nat (length ds)))%Q). { change 0%Q with (inject_Z 0). rewrite <- Zlt_Qlt. destruct ds; [congruence|cbn [length]; lia]. }
  split; [apply Qle_shift_div_l|apply Qle_shift_div_r]; try exact P.
  - change 0%Q with (inject_Z 0). setoid_replace (inject_Z 0 * inject_Z (Z.of_nat (length ds)))%Q with (inject_Z 0) by (unfold Qeq; simpl; lia). rewrite <- Zle_Qle. lia.
  - rewrite Qmult_1_l, <- Zle_Qle. lia.
Qed.

Lemma counts_below : forall ds i, list_sum (map (fun j => count_nat j ds) (seq 0 (S i))) = length (filter (fun d => d <=? i) ds).
Proof.
  intros ds i. induction ds as [|d ds IH].
  - cbn [filter length count_nat]. induction (seq 0 (S i)); [reflexivity|]. exact IHl.
  - assert (E : list_sum (map (fun j => count_nat j (d :: ds)) (seq 0 (S i))) = list_sum (map (fun j => count_nat j [d]) (seq 0 (S i))) + list_sum (map (fun j => count_nat j ds) (seq 0 (S i)))).
    { clear. induction (seq 0 (S i)) as [|j l IH]; [reflexivity|]. unfold list_sum in *. cbn [map fold_right]. rewrite IH. cbn [count_nat]. destruct (j =? d); lia. }
    rewrite E, IH. cbn [filter].
    assert (G : forall n s, list_sum (map (fun j => count_nat j [d]) (seq s n)) = if (s <=? d) && (d <? s + n) then 1 else 0).
    { clear. induction n as [|n IHn]; intro s; [destruct (s <=? d) eqn:X; destruct (d <? s + 0) eqn:Y; try reflexivity; lia|].
      change (seq s (S n)) with (s :: seq (S s) n). unfold list_sum in *. cbn [map fold_right]. rewrite (IHn (S s)). cbn [count_nat].
      destruct (Nat.eqb_spec s d); destruct (S s <=? d) eqn:X; destruct (d <? S s + n) eqn:Y; destruct (s <=? d) eqn:U; destruct (d <? s + S n) eqn:W; cbn [andb]; lia. }
    rewrite G. destruct (d <=? i) eqn:X; cbn [andb Nat.leb length]; [replace (d <? 0 + S i) with true by lia; lia|replace (d <? 0 + S i) with false by lia; lia].
Qed.

Lemma cdf_spec : forall ds m, ds <> [] -> (forall d, In d ds -> d < m) -> length (duration_cdf (map Z.of_nat ds) m) = m /\
  forall i c, at_ (duration_cdf (map Z.of_nat ds) m) i c -> (c == share i ds)%Q.
Proof.
  intros ds m Hn H. unfold duration_cdf. rewrite map_map, (map_ext (fun x => Z.to_nat (Z.of_nat x)) (fun x => x)) by (intro; apply Nat2Z.id). rewrite map_id, map_length.
  assert (L : length (bincount ds m) = m) by (apply bincount_length; exact H).
  split; [rewrite cumsum_length, map_length; exact L|]. intros i c Hc. apply cumsum_nth_eq in Hc. rewrite map_length, L in Hc. destruct Hc as (Hi & ->).
  rewrite firstn_map. rewrite (qsum_counts (firstn (S i) (bincount ds m)) (q_nat (length ds))). unfold share, q_nat.
  assert (E : list_sum (firstn (S i) (bincount ds m)) = length (filter (fun d => d <=? i) ds)); [|rewrite E; reflexivity].
  rewrite <- counts_below. unfold bincount in *. rewrite map_length, seq_length in L. rewrite L.
  rewrite (firstn_map_seq _ (fun i => count_nat i ds) m (S i)) by lia. reflexivity.
Qed.

Lemma perm_nil : forall A (a b : list A), Permutation a b -> b <> [] -> a <> [].
Proof. intros A a b P N E. subst. apply Permutation_nil in P. congruence. Qed.

Lemma durations_of_ne : forall s rs rss, Forall2 runs_of rs rss -> In s (concat rs) -> durations_of s (concat rss) <> [].
Proof.
  intros s rs rss F I E. apply cells_pos in I. rewrite <- (all_runs_time s rs rss F), time_list_sum, E in I. cbn in I. lia.
Qed.

Lemma durations_of_in : forall s runs d, In d (durations_of s runs) -> In (s, d) runs.
Proof.
  intros s runs d H. unfold durations_of in H. apply in_map_iff in H. destruct H as ([l e] & <- & H). apply filter_In in H. destruct H as (H & E). cbn [fst snd] in *.
  apply Nat.eqb_eq in E. subst. exact H.
Qed.


Lemma distribution_main : forall w rs rs', varying w rs -> varying w rs' -> (forall s, In s (concat rs) <-> In s (concat rs')) ->
  exists rss rss' out, duration_distribution_errors (mkTable w rs) (mkTable w rs') = Ok out /\ Forall2 runs_of rs rss /\ Forall2 runs_of rs' rss' /\
    enumerates (map fst out) (fun s => In s (concat rs)) /\
    forall s e, In (s, e) out -> length e = w + 1 /\
      forall t x, at_ e t x -> (x == Qabs (share t (durations_of s (concat rss)) - share t (durations_of s (concat rss'))))%Q.
Proof.
  intros w rs rs' (Hw & H & V) (_ & H' & V') S. destruct (dict_main w rs Hw H V) as (rss & d & E & F & K & KI & _ & D). destruct (dict_main w rs' Hw H' V') as (rss' & d' & E' & F' & K' & KI' & _ & D').
  unfold duration_distribution_errors. rewrite E, E'. cbn [bind width]. set (ks := uniq Nat.compare (map fst d ++ map fst d')).
  assert (KS : forall s, In s ks <-> In s (concat rs)). { intro s. unfold ks. rewrite (uniq_in nat_order), in_app_iff, KI, KI', <- S. tauto. }
  assert (One : forall s, In s ks -> exists e, distribution_error d d' w s = Ok e /\ length e = w + 1 /\
    forall t x, at_ e t x -> (x == Qabs (share t (durations_of s (concat rss)) - share t (durations_of s (concat rss'))))%Q).
  { intros s Hs. apply KS in Hs. pose proof Hs as Hs'. rewrite S in Hs'. destruct (D s Hs) as (a & Ea & Pa). destruct (D' s Hs') as (b & Eb & Pb).
    unfold distribution_error, dict_get. rewrite Ea. cbn [bind]. rewrite Eb. cbn [bind].
    assert (Na : a <> []) by (apply (perm_nil _ _ _ Pa), (durations_of_ne s rs); assumption). assert (Nb : b <> []) by (apply (perm_nil _ _ _ Pb), (durations_of_ne s rs'); assumption).
    destruct (cdf_spec a (w + 1) Na) as (La & Ca). { intros x Hx. apply (Permutation_in _ Pa) in Hx. apply durations_of_in in Hx. apply (all_runs_pos w rs rss _ H F) in Hx. cbn [snd] in Hx. lia. }
    destruct (cdf_spec b (w + 1) Nb) as (Lb & Cb). { intros x Hx. apply (Permutation_in _ Pb) in Hx. apply durations_of_in in Hx. apply (all_runs_pos w rs' rss' _ H' F') in Hx. cbn [snd] in Hx. lia. }
    rewrite La, Lb, Nat.eqb_refl. eexists. split; [reflexivity|]. split; [rewrite map2_length, La, Lb; lia|]. intros t x Hx.
    pose proof (at_lt _ _ _ _ Hx) as Ht. rewrite map2_length, La, Lb in Ht.
    destruct (lt_at _ (duration_cdf (map Z.of_nat a) (w + 1)) t ltac:(lia)) as (u & Hu). destruct (lt_at _ (duration_cdf (map Z.of_nat b) (w + 1)) t ltac:(lia)) as (v & Hv).
    unfold at_ in Hx. rewrite map2_nth in Hx. unfold at_ in Hu, Hv. rewrite Hu, Hv in Hx. assert (X : x = Qabs (u - v)) by congruence. rewrite X.
    rewrite <- (share_perm t _ _ Pa), <- (share_perm t _ _ Pb). apply Qabs_wd. apply Qplus_comp; [exact (Ca t u Hu)|]. apply Qopp_comp. exact (Cb t v Hv). }
  destruct (mapM_total _ _ (fun s => bind (distribution_error d d' w s) (fun e => Ok (s, e))) ks) as (out & Eo).
  { intros s Hs. destruct (One s Hs) as (e & -> & _). eexists. reflexivity. }
  exists rss, rss', out. split; [exact Eo|]. split; [exact F|]. split; [exact F'|]. apply mapM_ok in Eo. destruct Eo as (L & P).
  assert (Each : forall i s p, at_ ks i s -> at_ out i p -> exists e, p = (s, e) /\ distribution_error d d' w s = Ok e).
  { intros i s p Hs Hp. specialize (P i s Hs). destruct P as (q & Hq & Eq). assert (p = q) by (unfold at_ in *; congruence). subst q.
    destruct (distribution_error d d' w s) as [e|] eqn:Ee; cbn [bind] in Eq; [|discriminate]. exists e. split; [congruence|reflexivity]. }
  assert (Keys : map fst out = ks).
  { apply nth_list_ext. intro i. rewrite nth_error_map. destruct (nth_error ks i) as [s|] eqn:Es.
    - destruct (P i s Es) as (p & Hp & _). rewrite Hp. destruct (Each i s p Es Hp) as (e & -> & _). reflexivity.
    - apply nth_error_None in Es. rewrite <- L in Es. apply nth_error_None in Es. rewrite Es. reflexivity. }
  split; [rewrite Keys; split; [apply uniq_nodup, nat_order|exact KS]|].
  intros s e He. apply in_at in He. destruct He as (i & Hi). assert (Hk : at_ ks i s) by (unfold at_ in *; rewrite <- Keys, nth_error_map, Hi; reflexivity).
  destruct (Each i s (s, e) Hk Hi) as (e' & Q & Ee). injection Q as <-. destruct (One s (at_in _ _ _ _ Hk)) as (e'' & Ee' & R). rewrite Ee in Ee'. injection Ee' as <-. exact R.
Qed.

Lemma mapM_err : forall A B (f : A -> result B) e l, (forall x, In x l -> is_ok (f x) = true \/ f x = Err e) -> (exists x, In x l /\ f x = Err e) -> mapM f l = Err e.
Proof.
  intros A B f e l. induction l as [|y l IH]; intros H (x & Hx & E); [destruct Hx|]. cbn [mapM]. destruct (H y (or_introl eq_refl)) as [O|O]; [|rewrite O; reflexivity].
  destruct (f y) as [z|] eqn:Ef; [|discriminate]. cbn [bind]. rewrite IH; [reflexivity|intros; apply H; now right|]. destruct Hx as [->|Hx]; [congruence|]. exists x. auto.
Qed.

Lemma distribution_key_error : forall w rs rs' s, varying w rs -> varying w rs' -> (In s (concat rs) /\ ~ In s (concat rs') \/ ~ In s (concat rs) /\ In s (concat rs')) ->
  duration_distribution_errors (mkTable w rs) (mkTable w rs') = Err KeyError.
Proof.
  intros w rs rs' s (Hw & H & V) (_ & H' & V') S. destruct (dict_main w rs Hw H V) as (rss & d & E & F & K & KI & KN & D). destruct (dict_main w rs' Hw H' V') as (rss' & d' & E' & F' & K' & KI' & KN' & D').
  unfold duration_distribution_errors. rewrite E, E'. cbn [bind width]. apply mapM_err.
  - intros k Hk. unfold distribution_error, dict_get.
    destruct (in_dec Nat.eq_dec k (concat rs)) as [I|I]; [|rewrite (KN k I); right; reflexivity]. destruct (D k I) as (a & Ea & Pa). rewrite Ea. cbn [bind].
    destruct (in_dec Nat.eq_dec k (concat rs')) as [I'|I']; [|rewrite (KN' k I'); right; reflexivity]. destruct (D' k I') as (b & Eb & Pb). rewrite Eb. cbn [bind].
    assert (Na : a <> []) by (apply (perm_nil _ _ _ Pa), (durations_of_ne k rs); assumption). assert (Nb : b <> []) by (apply (perm_nil _ _ _ Pb), (durations_of_ne k rs'); assumption).
    destruct (cdf_spec a (w + 1) Na) as (La & _). { intros x Hx. apply (Permutation_in _ Pa) in Hx. apply durations_of_in in Hx. apply (all_runs_pos w rs rss _ H F) in Hx. cbn [snd] in Hx. lia. }
    destruct (cdf_spec b (w + 1) Nb) as (Lb & _). { intros x Hx. apply (Permutation_in _ Pb) in Hx. apply durations_of_in in Hx. apply (all_runs_pos w rs' rss' _ H' F') in Hx. cbn [snd] in Hx. lia. }
    rewrite La, Lb, Nat.eqb_refl. left. reflexivity.
  - exists s. rewrite (uniq_in nat_order), in_app_iff, KI, KI'. split; [tauto|]. unfold distribution_error, dict_get. destruct S as [(I & N)|(N & I)].
    + destruct (D s I) as (a & -> & _). cbn [bind]. rewrite (KN' s N). reflexivity.
    + rewrite (KN s N). reflexivity.
Qed.

(** ** Average state *)
Open Scope Q_scope.

Lemma mean_some : forall l, l <> [] -> q_mean l = Some (qsum l / q_nat (length l)).
Proof.
  intros l H. unfold q_mean. apply q_div_pos. unfold q_nat. change 0 with (inject_Z 0). rewrite <- Zlt_Qlt. destruct l; [congruence|cbn [length]; lia].
Qed.

Lemma boxed_rect : forall A w (rs : list (list A)), boxed w rs -> rectangular (mkTable w rs) = true.
Proof. intros A w rs H. unfold rectangular. apply forallb_forall. intros r Hr. apply Nat.eqb_eq, H, Hr. Qed.

Lemma column_means_spec : forall w rs, boxed w rs -> rs <> [] -> exists ms, column_means (mkTable w rs) = map Some ms /\ length ms = w /\
  forall j, (j < w)%nat -> exists m, at_ ms j m /\ m == col_mean rs j.
Proof.
  intros w rs H N. exists (map (fun j => qsum (map (fun r => nth j r 0) rs) / q_nat (length rs)) (seq 0 w)). unfold column_means, columns. cbn [width]. split; [|split].
  - rewrite !map_map. apply map_ext_in. intros j Hj. apply in_seq in Hj. rewrite (column_map (mkTable w rs) 0); [|apply boxed_rect, H|cbn; lia].
    cbn [rows]. rewrite mean_some, map_length by (destruct rs; [congruence|discriminate]). reflexivity.
  - rewrite map_length, seq_length. reflexivity.
  - intros j Hj. eexists. split; [unfold at_; rewrite nth_error_map, at_seq' by exact Hj; reflexivity|]. unfold col_mean. rewrite (total_qsum (map (fun r => nth j r 0) rs)). reflexivity.
Qed.

Lemma opt_all_some : forall l, opt_all (map Some l) = Some l.
Proof. induction l as [|x l IH]; [reflexivity|]. cbn. rewrite IH. reflexivity. Qed.

Lemma qsum_pointwise : forall n (f : nat -> Q) l s, length l = n -> (forall j, (j < n)%nat -> exists x, at_ l j x /\ x == f (s + j)%nat) -> qsum l == qsum (map f (seq s n)).
Proof.
  induction n as [|n IH]; intros f l s L H; destruct l as [|x l]; try discriminate; [reflexivity|]. injection L as L. cbn [seq map qsum].
  destruct (H 0%nat ltac:(lia)) as (y & Hy & Ey). injection Hy as <-. rewrite Nat.add_0_r in Ey. rewrite Ey. apply Qplus_comp; [reflexivity|]. apply IH; [exact L|].
  intros j Hj. destruct (H (S j) ltac:(lia)) as (z & Hz & Ez). exists z. split; [exact Hz|]. rewrite Ez. replace (s + S j)%nat with (S s + j)%nat by lia. reflexivity.
Qed.

Lemma average_main : forall w rs rs', (0 < w)%nat -> boxed w rs -> boxed w rs' -> rs <> [] -> rs' <> [] -> exists es m,
  average_errors (mkTable w rs) (mkTable w rs') = Ok (map Some es) /\ length es = w /\
  (forall j, (j < w)%nat -> exists e, at_ es j e /\ e == Qabs (col_mean rs j - col_mean rs' j)) /\
  average_state_metric (mkTable w rs) (mkTable w rs') = Ok (Some m) /\ m == mean_gap w rs rs'.
Proof.
  intros w rs rs' Hw H H' N N'. destruct (column_means_spec w rs H N) as (ms & E & L & C). destruct (column_means_spec w rs' H' N') as (ms' & E' & L' & C').
  assert (EE : average_errors (mkTable w rs) (mkTable w rs') = Ok (map Some (map2 (fun a b => Qabs (a - b)) ms ms'))).
  { unfold average_errors, broadcast. rewrite E, E', !map_length, L, L', Nat.eqb_refl. f_equal. clear. revert ms'. induction ms as [|m ms IH]; intros [|m' ms']; try reflexivity. cbn [map map2]. rewrite IH. reflexivity. }
  assert (LE : length (map2 (fun a b => Qabs (a - b)) ms ms') = w) by (rewrite map2_length, L, L'; lia).
  assert (PE : forall j, (j < w)%nat -> exists e, at_ (map2 (fun a b => Qabs (a - b)) ms ms') j e /\ e == Qabs (col_mean rs j - col_mean rs' j)).
  { intros j Hj. destruct (C j Hj) as (m & Hm & Em). destruct (C' j Hj) as (m' & Hm' & Em'). exists (Qabs (m - m')). split; [unfold at_ in *; rewrite map2_nth, Hm, Hm'; reflexivity|].
    apply Qabs_wd. apply Qplus_comp; [exact Em|]. apply Qopp_comp. exact Em'. }
  exists (map2 (fun a b => Qabs (a - b)) ms ms'). eexists. split; [exact EE|]. split; [exact LE|]. split; [exact PE|].
  unfold average_state_metric. rewrite EE. cbn [bind]. rewrite opt_all_some, mean_some, LE by (intro Z; rewrite Z in LE; cbn in LE; lia). split; [reflexivity|].
  unfold mean_gap. rewrite (total_qsum (map (fun j => Qabs (col_mean rs j - col_mean rs' j)) (seq 0 w))). apply Qdiv_comp; [|reflexivity].
  apply (qsum_pointwise w (fun j => Qabs (col_mean rs j - col_mean rs' j)) _ 0%nat LE). exact PE.
Qed.

Lemma gap_sum : forall (f g : nat -> Q) l, (forall j, In j l -> f j <= g j) -> qsum (map f l) <= qsum (map g l).
Proof. intros f g l H. induction l as [|j l IH]; [apply Qle_refl|]. cbn [map qsum]. apply Qplus_le_compat; [apply H; now left|]. apply IH. intros; apply H; now right. Qed.

Lemma gap_metric : forall w rs rs' rs'', (0 < w)%nat -> 0 <= mean_gap w rs rs' /\ mean_gap w rs rs == 0 /\ mean_gap w rs rs' == mean_gap w rs' rs /\
  mean_gap w rs rs'' <= mean_gap w rs rs' + mean_gap w rs' rs''.
Proof.
  intros w a b c Hw. assert (P : 0 < inject_Z (Z.of_nat w)) by (change 0 with (inject_Z 0); rewrite <- Zlt_Qlt; lia).
  assert (T : forall a b, mean_gap w a b == qsum (map (fun j => Qabs (col_mean a j - col_mean b j)) (seq 0 w)) / inject_Z (Z.of_nat w)).
  { intros. unfold mean_gap. rewrite (total_qsum (map (fun j => Qabs (col_mean a0 j - col_mean b0 j)) (seq 0 w))). reflexivity. }
  rewrite !T. split; [|split; [|split]].
  - apply Qle_shift_div_l; [exact P|]. rewrite Qmult_0_l. apply qsum_nonneg. apply Forall_forall. intros x Hx. apply in_map_iff in Hx. destruct Hx as (j & <- & _). apply Qabs_nonneg.
  - assert (Z : qsum (map (fun j => Qabs (col_mean a j - col_mean a j)) (seq 0 w)) == 0).
    { apply qsum_zero, Forall_forall. intros x Hx. apply in_map_iff in Hx. destruct Hx as (j & <- & _). setoid_replace (col_mean a j - col_mean a j) with 0 by ring. reflexivity. }
    rewrite Z. unfold Qdiv. ring.
  - apply Qdiv_comp; [|reflexivity]. apply qsum_ext. intros j _. rewrite Qabs_Qminus. reflexivity.
  - setoid_replace (qsum (map (fun j => Qabs (col_mean a j - col_mean b j)) (seq 0 w)) / inject_Z (Z.of_nat w) + qsum (map (fun j => Qabs (col_mean b j - col_mean c j)) (seq 0 w)) / inject_Z (Z.of_nat w))
      with ((qsum (map (fun j => Qabs (col_mean a j - col_mean b j)) (seq 0 w)) + qsum (map (fun j => Qabs (col_mean b j - col_mean c j)) (seq 0 w))) / inject_Z (Z.of_nat w)) by (field; lra).
    unfold Qdiv. apply Qmult_le_compat_r; [|apply Qlt_le_weak, Qinv_lt_0_compat, P]. rewrite <- qsum_map_add. apply gap_sum. intros j _.
    eapply Qle_trans; [|apply Qabs_triangle]. setoid_replace (col_mean a j - col_mean b j + (col_mean b j - col_mean c j)) with (col_mean a j - col_mean c j) by ring. apply Qle_refl.
Qed.

(** ** Graph *)
Open Scope nat_scope.

Section Graph.
  Variables (w : nat) (rs : list (list nat)).
  Hypothesis box : boxed w rs.
  Hypothesis wpos : 0 < w.
  Hypothesis some : rs <> [].

  Definition colf (j : nat) : list nat := map (fun r => nth j r 0) rs.
  Definition pairs (t : nat) : list (nat * nat) := map (fun r => (nth (before w t) r 0, nth t r 0)) rs.
  Definition tag (t : nat) (p : (nat * nat) * nat) : (nat * nat * nat) * nat := ((t, fst (fst p), snd (fst p)), snd p).
  Definition edges_at (t : nat) := map (tag t) (uniq_counts cmp2 (pairs t)).

  Lemma columns_colf : columns (mkTable w rs) = map colf (seq 0 w).
  Proof.
    unfold columns. cbn [width]. apply map_ext_in. intros j Hj. apply in_seq in Hj. rewrite (column_map (mkTable w rs) 0); [reflexivity|apply boxed_rect, box|cbn; lia].
  Qed.

  Lemma edges_concat : forall n s, s + n <= w -> edges_from s (colf (before w s)) (map colf (seq s n)) = concat (map edges_at (seq s n)).
  Proof.
    induction n as [|n IH]; intros s H; [reflexivity|]. cbn [seq map edges_from concat].
    assert (P : combine (colf (before w s)) (colf s) = pairs s). { unfold colf, pairs. clear. induction rs as [|r l IH]; [reflexivity|]. cbn [map combine]. f_equal. exact IH. }
    rewrite P. f_equal.
    - unfold edges_at. apply map_ext. intros [[a b] c]. reflexivity.
    - apply (IH (S s)). lia.
  Qed.

  Definition edges := concat (map edges_at (seq 0 w)).

  Lemma edges_model : forall c0, edges_from 0 (last (columns (mkTable w rs)) c0) (columns (mkTable w rs)) = edges.
  Proof.
    intro c0. rewrite columns_colf. assert (L : last (map colf (seq 0 w)) c0 = colf (before w 0)).
    { cbn [before]. destruct w as [|n]; [lia|]. rewrite seq_S, map_app, last_app_ne by discriminate. cbn. f_equal. lia. }
    rewrite L. apply edges_concat. lia.
  Qed.

  Lemma pairs_in : forall t a b, t < w -> (In (a, b) (pairs t) <-> moves w rs t a b).
  Proof.
    intros t a b Ht. unfold pairs. rewrite in_map_iff. assert (B : before w t < w) by (destruct t; cbn; lia). split.
    - intros (r & E & Hr). injection E as E1 E2. split; [exact Ht|]. exists r. split; [exact Hr|]. specialize (box r Hr). split; unfold at_; rewrite (nth_error_nth' r 0) by lia; congruence.
    - intros (_ & r & Hr & Ha & Hb). exists r. split; [|exact Hr]. unfold at_ in *. rewrite (nth_error_nth _ _ 0 Ha), (nth_error_nth _ _ 0 Hb). reflexivity.
  Qed.

  Lemma edges_in : forall t a b c, In ((t, a, b), c) edges <-> moves w rs t a b /\ c = count_of cmp2 (a, b) (pairs t).
  Proof.
    intros t a b c. unfold edges. rewrite in_concat. split.
    - intros (l & Hl & Hi). apply in_map_iff in Hl. destruct Hl as (s & <- & Hs). apply in_seq in Hs. unfold edges_at in Hi. apply in_map_iff in Hi. destruct Hi as ([[x y] k] & E & Hi).
      unfold tag in E. cbn [fst snd] in E. injection E as -> -> -> ->. unfold uniq_counts in Hi. apply in_map_iff in Hi. destruct Hi as (p & E & Hp). injection E as -> <-.
      rewrite (uniq_in order2) in Hp. rewrite pairs_in in Hp by lia. auto.
    - intros (M & ->). exists (edges_at t). split; [apply in_map, in_seq; destruct M; lia|]. unfold edges_at. apply in_map_iff. exists ((a, b), count_of cmp2 (a, b) (pairs t)).
      split; [reflexivity|]. unfold uniq_counts. apply in_map_iff. exists (a, b). split; [reflexivity|]. rewrite (uniq_in order2). apply pairs_in; [apply M|exact M].
  Qed.

  Lemma edges_enum : enumerates (map fst edges) (fun e => moves w rs (fst (fst e)) (snd (fst e)) (snd e)).
  Proof.
    split.
    - unfold edges. assert (G : forall n s, NoDup (map fst (concat (map edges_at (seq s n)))) /\ forall e, In e (map fst (concat (map edges_at (seq s n)))) -> s <= fst (fst e)).
      { induction n as [|n IH]; intro s; [split; [constructor|intros e []]|]. cbn [seq map concat]. rewrite map_app. destruct (IH (S s)) as (I1 & I2).
        assert (F : forall e, In e (map fst (edges_at s)) -> fst (fst e) = s).
        { intros e He. apply in_map_iff in He. destruct He as (p & <- & Hp). unfold edges_at in Hp. apply in_map_iff in Hp. destruct Hp as (q & <- & _). reflexivity. }
        split.
        - assert (N1 : NoDup (map fst (edges_at s))).
          { unfold edges_at, uniq_counts. rewrite !map_map. cbn [tag fst snd]. apply FinFun.Injective_map_NoDup; [|apply uniq_nodup, order2]. intros [a b] [a' b'] E. cbn in E. congruence. }
          clear - N1 I1 I2 F. induction (map fst (edges_at s)) as [|x l IHl]; [exact I1|]. inversion N1; subst. cbn [List.app]. constructor.
          + rewrite in_app_iff. intros [?|Hx]; [tauto|]. apply I2 in Hx. rewrite (F x (or_introl eq_refl)) in Hx. lia.
          + apply IHl; auto; intros; apply F; now right.
        - intros e He. rewrite in_app_iff in He. destruct He as [He|He]; [rewrite (F e He); lia|apply I2 in He; lia]. }
      apply G.
    - intros [[t a] b]. cbn [fst snd]. rewrite in_map_iff. split.
      + intros ([e c] & E & Hi). cbn [fst] in E. subst e. apply edges_in in Hi. tauto.
      + intro M. exists ((t, a, b), count_of cmp2 (a, b) (pairs t)). split; [reflexivity|]. apply edges_in. auto.
  Qed.

  Lemma uniq_counted : forall A (cmp : A -> A -> comparison), total_order cmp -> forall (f : A -> bool) l u, NoDup u -> (forall x, In x l -> In x u) ->
    list_sum (map (fun x => if f x then count_of cmp x l else 0) u) = length (filter f l).
  Proof.
    intros A cmp O f l. induction l as [|y l IH]; intros u N H.
    - cbn [filter length]. clear. induction u as [|x u IH]; [reflexivity|]. unfold list_sum in *. cbn [map fold_right]. rewrite IH. unfold count_of. cbn. destruct (f x); reflexivity.
    - specialize (IH u N ltac:(intros; apply H; now right)). specialize (H y (or_introl eq_refl)). cbn [filter].
      assert (E : list_sum (map (fun x => if f x then count_of cmp x (y :: l) else 0) u) =
        list_sum (map (fun x => if f x then if is_eq cmp x y then 1 else 0 else 0) u) + list_sum (map (fun x => if f x then count_of cmp x l else 0) u)).
      { clear. induction u as [|x u IH]; [reflexivity|]. unfold list_sum in *. cbn [map fold_right]. rewrite IH. unfold count_of. cbn [filter]. destruct (f x), (is_eq cmp x y); cbn [length]; lia. }
      rewrite E, IH. assert (G : list_sum (map (fun x => if f x then if is_eq cmp x y then 1 else 0 else 0) u) = if f y then 1 else 0).
      { clear - O N H. induction u as [|x u IH]; [destruct H|]. inversion N; subst. unfold list_sum in *. cbn [map fold_right]. destruct (is_eq cmp x y) eqn:Q.
        - apply (is_eq_iff O) in Q. subst y. assert (Z : forall v, ~ In x v -> fold_right Nat.add 0 (map (fun z => if f z then if is_eq cmp z x then 1 else 0 else 0) v) = 0).
          { clear - O. induction v as [|z v IH]; intro Hn; [reflexivity|]. cbn [map fold_right]. rewrite IH by (intro; apply Hn; now right).
            destruct (is_eq cmp z x) eqn:Q; [apply (is_eq_iff O) in Q; subst; exfalso; apply Hn; now left|]. destruct (f z); reflexivity. }
          rewrite Z by assumption. destruct (f x); reflexivity.
        - destruct H as [->|H]; [assert (is_eq cmp y y = true) by (apply (is_eq_iff O); reflexivity); congruence|]. rewrite IH by assumption. destruct (f x); reflexivity. }
      rewrite G. destruct (f y); reflexivity.
  Qed.

  Lemma weights : forall (f : nat -> nat -> bool) n s,
    list_sum (map (fun e => if f (e_end e) (e_source e) then snd e else 0) (concat (map edges_at (seq s n)))) =
    list_sum (map (fun t => length (filter (fun p => f (snd p) (fst p)) (pairs t))) (seq s n)).
  Proof.
    intros f n. induction n as [|n IH]; intro s; [reflexivity|]. cbn [seq map concat]. rewrite map_app, list_sum_app, IH. match goal with |- _ + ?b = list_sum (?x :: ?l) => change (list_sum (x :: l)) with (x + list_sum l) end. f_equal.
    unfold edges_at, uniq_counts. rewrite !map_map. rewrite <- (uniq_counted _ cmp2 order2 (fun p => f (snd p) (fst p)) (pairs s) (uniq cmp2 (pairs s)));
      [|apply uniq_nodup, order2|intros x Hx; apply (uniq_in order2), Hx]. f_equal.
  Qed.

  Lemma sum_const : forall A (f : A -> nat) l c, (forall x, In x l -> f x = c) -> list_sum (map f l) = length l * c.
  Proof. intros A f l c H. induction l as [|x l IH]; [reflexivity|]. unfold list_sum in *. cbn [map fold_right length]. rewrite IH, (H x) by (auto; now left || (intros; apply H; now right)). lia. Qed.

  Lemma total_weight : list_sum (map snd edges) = length rs * w.
  Proof.
    pose proof (weights (fun _ _ => true) w 0) as W. cbn beta iota in W. unfold edges. etransitivity; [exact W|]. rewrite (sum_const _ _ _ (length rs)).
    - rewrite seq_length. lia.
    - intros t _. assert (E : forall l : list (nat * nat), filter (fun _ => true) l = l) by (induction l as [|x l IHl]; [reflexivity|cbn; f_equal; exact IHl]). rewrite E. unfold pairs. apply map_length.
  Qed.

  Lemma same_weight : list_sum (map (fun e => if e_end e =? e_source e then snd e else 0) edges) = list_sum (map (stays w) rs).
  Proof.
    unfold edges. rewrite (weights Nat.eqb w 0). unfold pairs, stays.
    assert (S : forall l, (forall r, In r l -> length r = w) ->
      list_sum (map (fun t => length (filter (fun p => snd p =? fst p) (map (fun r => (nth (before w t) r 0, nth t r 0)) l))) (seq 0 w)) =
      list_sum (map (fun r => length (filter (fun t => match nth_error r t, nth_error r (before w t) with Some a, Some b => a =? b | _, _ => false end) (seq 0 w))) l)).
    { induction l as [|r l IH]; intro H.
      - cbn [map filter length]. rewrite (sum_const _ (fun _ => 0) (seq 0 w) 0) by reflexivity. cbn. lia.
      - specialize (IH ltac:(intros; apply H; now right)). specialize (H r (or_introl eq_refl)). unfold list_sum in *. cbn [map fold_right filter]. rewrite <- IH. clear IH.
        assert (G : forall ts, (forall t, In t ts -> t < w) -> fold_right Nat.add 0 (map (fun t => length (if snd (nth (before w t) r 0, nth t r 0) =? fst (nth (before w t) r 0, nth t r 0)
            then (nth (before w t) r 0, nth t r 0) :: filter (fun p => snd p =? fst p) (map (fun r0 => (nth (before w t) r0 0, nth t r0 0)) l)
            else filter (fun p => snd p =? fst p) (map (fun r0 => (nth (before w t) r0 0, nth t r0 0)) l))) ts) =
          length (filter (fun t => match nth_error r t, nth_error r (before w t) with Some a, Some b => a =? b | _, _ => false end) ts) +
          fold_right Nat.add 0 (map (fun t => length (filter (fun p => snd p =? fst p) (map (fun r0 => (nth (before w t) r0 0, nth t r0 0)) l))) ts)).
        { induction ts as [|t ts IHt]; intro Ht; [reflexivity|]. cbn [map fold_right filter]. rewrite IHt by (intros; apply Ht; now right). specialize (Ht t (or_introl eq_refl)).
          assert (B : before w t < w) by (destruct t; cbn; lia). rewrite (nth_error_nth' r 0 (n := t)) by lia. rewrite (nth_error_nth' r 0 (n := before w t)) by lia. cbn [fst snd].
          destruct (nth t r 0 =? nth (before w t) r 0); cbn [length]; lia. }
        apply G. intros t Ht. apply in_seq in Ht. lia. }
    apply S. exact box.
  Qed.

  Lemma visits_iff : forall t a, t < w -> (visits rs t a <-> exists b, moves w rs t b a).
  Proof.
    intros t a Ht. assert (B : before w t < w) by (destruct t; cbn; lia). split.
    - intros (r & Hr & Ha). destruct (lt_at _ r (before w t)) as (b & Hb); [rewrite (box r Hr); exact B|]. exists b. split; [exact Ht|]. exists r. auto.
    - intros (b & _ & r & Hr & _ & Ha). exists r. auto.
  Qed.

  Lemma visits_before : forall t a, t < w -> (visits rs (before w t) a <-> exists b, moves w rs t a b).
  Proof.
    intros t a Ht. split.
    - intros (r & Hr & Ha). destruct (lt_at _ r t) as (b & Hb); [rewrite (box r Hr); exact Ht|]. exists b. split; [exact Ht|]. exists r. auto.
    - intros (b & _ & r & Hr & Ha & _). exists r. auto.
  Qed.

  Lemma sources_iff : forall a, In a (map e_source edges) <-> In a (concat rs).
  Proof.
    intro a. rewrite in_map_iff, in_concat. split.
    - intros ([[[t x] b] c] & E & Hi). unfold e_source in E. cbn in E. subst x. apply edges_in in Hi. destruct Hi as ((_ & r & Hr & Ha & _) & _). exists r. split; [exact Hr|eapply at_in; exact Ha].
    - intros (r & Hr & Ha). apply in_at in Ha. destruct Ha as (j & Hj). pose proof (at_lt _ _ _ _ Hj) as L. rewrite (box r Hr) in L.
      assert (T : exists t, t < w /\ before w t = j). { destruct (Nat.eq_dec (S j) w) as [E|E]; [exists 0; cbn; lia|exists (S j); cbn; lia]. }
      destruct T as (t & Ht & <-). destruct (proj1 (visits_before t a Ht)) as (b & M); [exists r; auto|].
      exists ((t, a, b), count_of cmp2 (a, b) (pairs t)). split; [reflexivity|]. apply edges_in. auto.
  Qed.

  Definition ids := (map (fun e => (e_time e, e_source e)) edges ++ map (fun e => (e_time e, e_end e)) edges)%list.

  Lemma ids_iff : forall t a, In (t, a) ids <-> t < w /\ (visits rs t a \/ visits rs (before w t) a).
  Proof.
    intros t a. unfold ids. rewrite in_app_iff, !in_map_iff. split.
    - intros [([[[s x] y] c] & E & Hi)|([[[s x] y] c] & E & Hi)]; unfold e_time, e_source, e_end in E; cbn in E; injection E as -> ->; apply edges_in in Hi; destruct Hi as (M & _);
        pose proof (proj1 M) as Ht; (split; [exact Ht|]); [right; apply visits_before; eauto|left; apply visits_iff; eauto].
    - intros (Ht & [V|V]); [right; apply visits_iff in V|left; apply visits_before in V]; try exact Ht; destruct V as (b & M); eexists; (split; [|apply edges_in; split; [exact M|reflexivity]]); reflexivity.
  Qed.

  Theorem graph_main : 2 <= w -> exists es ks nodes g, graph_metrics (mkTable w rs) = Ok g /\
    enumerates es (fun e => moves w rs (fst (fst e)) (snd (fst e)) (snd e)) /\ enumerates ks (fun s => In s (concat rs)) /\
    enumerates nodes (fun p => fst p < w /\ (visits rs (fst p) (snd p) \/ visits rs (before w (fst p)) (snd p))) /\
    network_size g = length nodes /\ network_density g = (q_nat (length es) / q_nat ((w - 1) * length ks ^ 2))%Q /\
    centrality g = (q_nat (length rs * w) / q_nat (length es))%Q /\ homophily g = (q_nat (list_sum (map (stays w) rs)) / q_nat (length rs * w))%Q.
  Proof.
    intro H2. exists (map fst edges), (uniq Nat.compare (map e_source edges)), (uniq cmp2 ids). unfold graph_metrics. cbn [rows].
    destruct rs as [|r0 rest] eqn:Er; [congruence|]. rewrite <- Er in *.
    assert (C : columns (mkTable w rs) = map colf (seq 0 w)) by apply columns_colf. destruct (columns (mkTable w rs)) as [|c0 cl] eqn:Ec; [destruct w; [lia|discriminate]|].
    rewrite <- Ec in *. rewrite (edges_model c0). rewrite C, map_length, seq_length.
    assert (K : uniq Nat.compare (map e_source edges) <> []).
    { intro E. assert (X : In (hd 0 r0) (concat rs)). { rewrite Er. cbn [concat]. apply in_or_app. left. assert (L : length r0 = w) by (apply box; rewrite Er; now left). destruct r0; [cbn in L; lia|now left]. }
      rewrite <- sources_iff, <- (uniq_in nat_order), E in X. destruct X. }
    destruct (Nat.eqb_spec ((w - 1) * length (uniq Nat.compare (map e_source edges)) ^ 2) 0) as [Z|_].
    { exfalso. assert (0 < length (uniq Nat.compare (map e_source edges))) by (destruct (uniq Nat.compare (map e_source edges)); [congruence|cbn; lia]). cbn [Nat.pow] in Z. nia. }
    eexists. split; [reflexivity|]. cbn [network_size network_density centrality homophily]. split; [apply edges_enum|].
    split; [split; [apply uniq_nodup, nat_order|intro s; rewrite (uniq_in nat_order); apply sources_iff]|].
    split; [split; [apply uniq_nodup, order2|intros [t a]; rewrite (uniq_in order2); apply ids_iff]|].
    fold ids. rewrite map_length, total_weight, same_weight. auto.
  Qed.
End Graph.

Open Scope Q_scope.

Lemma sparsity_spec : forall l, l <> [] -> exists s, sparsity l = Some s /\ s == q_nat (length (filter (fun x => Qle_bool x 0) l)) / q_nat (length l) /\ 0 <= s <= 1 /\
  (s == 0 <-> forall x, In x l -> 0 < x) /\ (s == 1 <-> forall x, In x l -> x <= 0).
Proof.
  intros l H. unfold sparsity. assert (P : 0 < q_nat (length l)). { unfold q_nat. change 0 with (inject_Z 0). rewrite <- Zlt_Qlt. destruct l; [congruence|cbn [length]; lia]. }
  rewrite q_div_pos by exact P. eexists. split; [reflexivity|].
  set (a := length (filter (fun x => Qltb 0 x) l)). set (b := length (filter (fun x => Qle_bool x 0) l)).
  assert (S : (a + b = length l)%nat). { unfold a, b. clear. induction l as [|x l IH]; [reflexivity|]. cbn [filter length]. destruct (Qltb 0 x) eqn:E; destruct (Qle_bool x 0) eqn:F; cbn [length]; try lia.
    - apply Qltb_lt in E. apply Qleb_le in F. lra. - apply Qltb_ge in E. apply Qleb_gt in F. lra. }
  assert (Q : 1 - q_nat a / q_nat (length l) == q_nat b / q_nat (length l)).
  { assert (E : q_nat (length l) == q_nat a + q_nat b) by (unfold q_nat; rewrite <- inject_Z_plus, <- Nat2Z.inj_add, S; reflexivity). setoid_replace (q_nat b) with (q_nat (length l) - q_nat a) by (rewrite E; ring). field. lra. }
  assert (B0 : 0 <= q_nat b) by (unfold q_nat; change 0 with (inject_Z 0); rewrite <- Zle_Qle; lia).
  assert (BL : q_nat b <= q_nat (length l)) by (unfold q_nat; rewrite <- Zle_Qle; lia).
  split; [exact Q|]. rewrite Q. split; [split; [apply Qle_shift_div_l|apply Qle_shift_div_r]; lra|].
  assert (Z : forall c, q_nat b / q_nat (length l) == c <-> q_nat b == c * q_nat (length l)).
  { intro c. split; intro E; [rewrite <- E; field; lra|rewrite E; field; lra]. }
  rewrite !Z. split.
  - setoid_replace (0 * q_nat (length l)) with (inject_Z (Z.of_nat 0)) by (change (inject_Z (Z.of_nat 0)) with 0; ring). unfold q_nat. split.
    + intros E x Hx. unfold Qeq in E. cbn in E. assert (B : b = 0%nat) by lia. unfold b in B. destruct (Qlt_le_dec 0 x) as [|L]; [assumption|]. apply Qleb_le in L.
      assert (I : In x (filter (fun x => Qle_bool x 0) l)) by (apply filter_In; auto). destruct (filter (fun x => Qle_bool x 0) l); [destruct I|discriminate].
    + intro A. assert (B : b = 0%nat); [|rewrite B; reflexivity]. unfold b. destruct (filter (fun x => Qle_bool x 0) l) as [|y f] eqn:E; [reflexivity|].
      assert (I : In y (filter (fun x => Qle_bool x 0) l)) by (rewrite E; now left). apply filter_In in I. destruct I as (I & L). apply A in I. apply Qleb_le in L. change (inject_Z (Z.of_nat 0)) with 0 in I. lra.
  - rewrite Qmult_1_l. unfold q_nat. split.
    + intros E x Hx. unfold Qeq in E. cbn in E. assert (B : a = 0%nat) by lia. unfold a in B. destruct (Qlt_le_dec 0 x) as [L|]; [|assumption]. apply Qltb_lt in L.
      assert (I : In x (filter (fun x => Qltb 0 x) l)) by (apply filter_In; auto). destruct (filter (fun x => Qltb 0 x) l); [destruct I|discriminate].
    + intro A. assert (B : a = 0%nat); [|assert (b = length l) as -> by lia; reflexivity]. unfold a. destruct (filter (fun x => Qltb 0 x) l) as [|y f] eqn:E; [reflexivity|].
      assert (I : In y (filter (fun x => Qltb 0 x) l)) by (rewrite E; now left). apply filter_In in I. destruct I as (I & L). apply A in I. apply Qltb_lt in L. lra.
Qed.
