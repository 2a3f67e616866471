(** * Proofs about the activity statistics of the German survey. *)

From Coq Require Import String List ZArith QArith Bool Arith Lia Lqa Permutation.
From Verif Require Import Prelude PreludeFacts SpecBase SpecBaseFacts Parse_Model Parse_Spec Parse_Proofs Parse_DurProofs Parse_TpmProofs Parse_SemiProofs Appliance_Model StateMetric_Model StateMetric_Spec StateMetric_Proofs
  Matrix_Proofs GTou_Model GTou_Spec GTou_Proofs GTou_LabelProofs.
Import ListNotations.

(** ** Durations *)

Lemma in_dget : forall K V (eqb : K -> K -> bool), (forall x y, eqb x y = true <-> x = y) -> forall (d : list (K * V)) k v, NoDup (map fst d) -> In (k, v) d -> dget eqb d k = Some v.
Proof.
  intros K V eqb He. induction d as [|[k' v'] d IH]; intros k v N I; [destruct I|]. cbn in *. inversion N; subst. destruct I as [[= -> ->]|I].
  - rewrite (proj2 (He k k) eq_refl). reflexivity.
  - destruct (eqb k k') eqn:E; [|apply IH; assumption]. apply He in E. subst k'. exfalso. apply H1. apply (in_map fst _ _ I).
Qed.

Lemma count_nat_filter : forall d l, count_nat d l = length (filter (Nat.eqb d) l).
Proof. induction l as [|x l IH]; [reflexivity|]. cbn. rewrite IH. destruct (d =? x)%nat; reflexivity. Qed.

Lemma perm_filter_length : forall A (f : A -> bool) l l', Permutation l l' -> length (filter f l) = length (filter f l').
Proof. intros A f l l' P. induction P as [|x l l' P IH|x y l|l1 l2 l3 P1 IH1 P2 IH2]; [reflexivity| | |lia]; cbn; [destruct (f x); cbn; lia|destruct (f x), (f y); reflexivity]. Qed.

Lemma duration_main : forall w states, (0 < w)%nat -> boxed w states -> (exists r a b, In r states /\ In a r /\ In b r /\ a <> b) ->
  exists dict num rss, parse_activity_duration w states = Ok dict /\
    (forall a b, In a (concat states) -> In b (concat states) -> num a = num b -> a = b) /\
    Forall2 runs_of (map (map num) states) rss /\ NoDup (map fst dict) /\ (forall a, In a (map fst dict) <-> In a (concat states)) /\
    forall a, In a (concat states) -> exists pdf, dget String.eqb dict a = Some pdf /\ is_pdf pdf /\ (length pdf <= S w)%nat /\ forall d q, at_ pdf d q ->
      let ds := durations_of (num a) (concat rss) in (q == q_of (length (filter (Nat.eqb d) ds)) / q_of (length ds) /\ (d = 0%nat -> q == 0))%Q.
Proof.
  intros w states Hw Hb (r0 & a0 & b0 & Hr0 & Ha0 & Hb0 & N0). unfold parse_activity_duration, number_labels.
  set (u := uniq String.compare (concat states)). set (num := fun x => index_in String.compare x u). set (s := map (map num) states).
  assert (Inu : forall x, In x u <-> In x (concat states)) by (intro x; apply (uniq_in string_order)).
  assert (At : forall x, In x (concat states) -> nth_error u (num x) = Some x) by (intros x Hx; apply (index_in_at string_order); apply Inu; exact Hx).
  assert (Inj : forall a b, In a (concat states) -> In b (concat states) -> num a = num b -> a = b). { intros a b Ha Hb' E. apply At in Ha, Hb'. rewrite E in Ha. congruence. }
  assert (Ins : forall k, In k (concat s) <-> exists x, In x (concat states) /\ k = num x).
  { intro k. unfold s. rewrite concat_map_map || rewrite <- (concat_map num). rewrite in_map_iff. split; [intros (x & <- & H); eauto|intros (x & H & ->); eauto]. }
  destruct (dict_main w s Hw) as (rss & dict & E & F & Kd & Ks & _ & D).
  { intros r Hr. unfold s in Hr. apply in_map_iff in Hr. destruct Hr as (r' & <- & Hr'). rewrite map_length. apply Hb. exact Hr'. }
  { exists (map num r0). split; [apply in_map; exact Hr0|]. exists (num a0), (num b0). split; [apply in_map; exact Ha0|]. split; [apply in_map; exact Hb0|]. intro X. apply N0. apply Inj; [apply in_concat; eauto|apply in_concat; eauto|exact X]. }
  rewrite E. cbn [bind].
  set (pdf := fun l : list Z => map (fun c => q_nat c / q_nat (length l))%Q (bincount (map Z.to_nat l) 0)).
  set (lab := fun k => match nth_error u k with Some a => a | None => ""%string end).
  assert (Em : mapM (fun kv => bind (vget u (fst kv)) (fun act => Ok (act, map (fun c => q_nat c / q_nat (length (snd kv)))%Q (bincount (map Z.to_nat (snd kv)) 0)))) dict = Ok (map (fun kv => (lab (fst kv), pdf (snd kv))) dict)).
  { apply mapM_map_total. intros [k l] Hk. cbn [fst snd]. assert (I : In k (concat s)) by (apply Ks; apply (in_map fst _ _ Hk)). apply Ins in I. destruct I as (x & Hx & ->).
    rewrite (proj2 (vget_ok _ u (num x) x) (At x Hx)). cbn [bind]. unfold lab. rewrite (At x Hx). reflexivity. }
  rewrite Em. exists (map (fun kv => (lab (fst kv), pdf (snd kv))) dict), num, rss. split; [reflexivity|]. split; [exact Inj|]. split; [exact F|].
  assert (Nk : NoDup (map fst dict)) by (rewrite Kd; apply (uniq_nodup nat_order)).
  assert (Efst : map fst (map (fun kv => (lab (fst kv), pdf (snd kv))) dict) = map lab (map fst dict)) by (rewrite !map_map; reflexivity).
  assert (Lab : forall x, In x (concat states) -> lab (num x) = x) by (intros x Hx; unfold lab; rewrite (At x Hx); reflexivity).
  assert (Nd : NoDup (map fst (map (fun kv => (lab (fst kv), pdf (snd kv))) dict))).
  { rewrite Efst. assert (X : forall k, In k (map fst dict) -> exists x, In x (concat states) /\ k = num x) by (intros k Hk; apply Ins, Ks, Hk). clear - Nk X Lab. induction (map fst dict) as [|k l IH]; [constructor|]. inversion Nk; subst. cbn [map]. constructor; [|apply IH; auto; intros; apply X; right; auto].
    intro I. apply in_map_iff in I. destruct I as (k' & E & I). destruct (X k (or_introl eq_refl)) as (x & Hx & ->). destruct (X k' (or_intror I)) as (x' & Hx' & ->). rewrite (Lab x Hx), (Lab x' Hx') in E. subst x'. contradiction. }
  split; [exact Nd|]. split.
  { intro a. rewrite Efst, in_map_iff. split.
    - intros (k & <- & Hk). apply Ks, Ins in Hk. destruct Hk as (x & Hx & ->). rewrite Lab by exact Hx. exact Hx.
    - intro Ha. exists (num a). split; [apply Lab; exact Ha|]. apply Ks, Ins. eauto. }
  intros a Ha. assert (Is : In (num a) (concat s)) by (apply Ins; eauto). destruct (D (num a) Is) as (ds & Ed & P). exists (pdf (map Z.of_nat ds)).
  assert (Ez : map Z.to_nat (map Z.of_nat ds) = ds) by (rewrite map_map; rewrite <- (map_id ds) at 2; apply map_ext; intro; apply Nat2Z.id).
  assert (Pos : forall d, In d ds -> (0 < d <= w)%nat).
  { intros d Hd. apply (Permutation_in _ P) in Hd. unfold durations_of in Hd. apply in_map_iff in Hd. destruct Hd as ([l d'] & <- & Hd). apply filter_In in Hd.
    apply (all_runs_pos w s rss (l, d')); [|exact F|apply Hd]. intros r Hr. unfold s in Hr. apply in_map_iff in Hr. destruct Hr as (r' & <- & Hr'). rewrite map_length. apply Hb. exact Hr'. }
  assert (Nds : ds <> []).
  { intro Z. subst ds. pose proof (all_runs_time (num a) s rss F) as T. rewrite time_list_sum in T. apply Permutation_nil in P. rewrite P in T. cbn in T.
    clear - T Is. induction (concat s) as [|y l IH]; [destruct Is|]. cbn in T. destruct (Nat.eqb_spec (num a) y) as [<-|N]; [lia|]. destruct Is as [->|Is]; [congruence|]. apply IH; [exact Is|exact T]. }
  split; [|split; [|split]].
  - apply (in_dget _ _ String.eqb String.eqb_eq); [exact Nd|]. apply in_map_iff. exists (num a, map Z.of_nat ds). cbn [fst snd]. rewrite (Lab a Ha). split; [reflexivity|]. eapply dget_in; [|exact Ed]. apply Nat.eqb_eq.
  - unfold pdf. rewrite Ez, map_length. apply shares_pdf. exact Nds.
  - unfold pdf. rewrite Ez, map_length. unfold bincount. rewrite map_length, seq_length. destruct ds as [|d0 ds0] eqn:Eds; [congruence|]. rewrite <- Eds in *. destruct (list_max_nat ds) eqn:Em'; [lia|]. assert (I : In (list_max_nat ds) ds) by (apply list_max_in; lia). apply Pos in I. lia.
  - intros d q Hq. unfold pdf in Hq. rewrite Ez, map_length in Hq. apply at_map in Hq. destruct Hq as (c & Hc & ->). apply bincount_nth in Hc. subst c. rewrite count_nat_filter, (perm_filter_length _ _ _ _ P), (Permutation_length P). split; [reflexivity|]. intros ->.
    rewrite <- (perm_filter_length _ _ _ _ P). replace (filter (Nat.eqb 0) ds) with (@nil nat); [unfold q_nat; cbn; unfold Qdiv; ring|]. symmetry. clear - Pos. induction ds as [|d ds IH]; [reflexivity|]. cbn. destruct d as [|d]; [specialize (Pos 0%nat (or_introl eq_refl)); lia|]. apply IH. intros; apply Pos; right; auto.
Qed.

(** ** Shares of the diaries *)

Lemma column_count : forall (f : string -> bool) w states i, boxed w states -> (i < w)%nat ->
  count_true (map f (column (mkTable w states) i)) = persons_at f states i /\ length (column (mkTable w states) i) = length states.
Proof.
  intros f w states i H Hi. unfold column, persons_at, count_true. cbn [rows]. induction states as [|r l IH]; [auto|]. cbn [flat_map filter].
  destruct (lt_at _ r i) as (x & Hx); [rewrite (H r (or_introl eq_refl)); exact Hi|]. unfold at_ in Hx. rewrite Hx. cbn [List.app map filter length].
  destruct IH as (IH1 & IH2); [intros y Hy; apply H; right; exact Hy|]. split; [|lia]. destruct (f x); cbn [length]; lia.
Qed.

Lemma share_of_at : forall w states a, boxed w states -> length (share_of (mkTable w states) a) = w /\
  forall i q, at_ (share_of (mkTable w states) a) i q -> q = (q_nat (persons_at (String.eqb a) states i) / q_nat (length states))%Q.
Proof.
  intros w states a H. unfold share_of, columns. cbn [width]. split; [rewrite !map_length; apply seq_length|]. intros i q Hq. rewrite map_map in Hq. apply at_map in Hq. destruct Hq as (j & Hj & ->).
  assert (E : j = i /\ (i < w)%nat). { unfold at_ in Hj. assert (L : (i < w)%nat) by (rewrite <- (seq_length w 0); apply nth_error_Some; congruence). rewrite (nth_error_nth' _ 0%nat) in Hj by (rewrite seq_length; exact L). rewrite seq_nth in Hj by exact L. split; [|exact L]. injection Hj as <-. lia. }
  destruct E as (-> & Hi). destruct (column_count (String.eqb a) w states i H Hi) as (-> & ->). reflexivity.
Qed.

Lemma persons_at_add : forall (f g : string -> bool) (t : list (list string)) i, (forall x, f x = true -> g x = true -> False) ->
  persons_at (fun x => f x || g x) t i = (persons_at f t i + persons_at g t i)%nat.
Proof.
  intros f g t i H. unfold persons_at. induction t as [|r t IH]; [reflexivity|]. cbn. destruct (nth_error r i) as [x|]; [|exact IH]. specialize (H x). destruct (f x), (g x); cbn; try lia; exfalso; auto.
Qed.

Lemma persons_at_compl : forall (f : string -> bool) w t i, boxed w t -> (i < w)%nat -> (persons_at f t i + persons_at (fun x => negb (f x)) t i = length t)%nat.
Proof.
  intros f w t i H Hi. unfold persons_at. induction t as [|r t IH]; [reflexivity|]. cbn. destruct (lt_at _ r i) as (x & Hx); [rewrite (H r (or_introl eq_refl)); exact Hi|]. unfold at_ in Hx. rewrite Hx.
  assert (IH' := IH (fun y Hy => H y (or_intror Hy))). destruct (f x); cbn; lia.
Qed.

Lemma persons_sum : forall w t i labels, boxed w t -> (i < w)%nat -> NoDup labels -> (forall x, In x (concat t) -> In x labels) ->
  nsum (map (fun a => persons_at (String.eqb a) t i) labels) = length t.
Proof.
  intros w t i labels H Hi N C. induction t as [|r t IH].
  - unfold persons_at. cbn. clear. induction labels; cbn; auto.
  - destruct (lt_at _ r i) as (x & Hx); [rewrite (H r (or_introl eq_refl)); exact Hi|].
    assert (E : forall a, persons_at (String.eqb a) (r :: t) i = ((if String.eqb a x then 1 else 0) + persons_at (String.eqb a) t i)%nat). { intro a. unfold persons_at. cbn. unfold at_ in Hx. rewrite Hx. destruct (String.eqb a x); reflexivity. }
    rewrite (map_ext _ _ E), nsum_map_add, IH; [|intros y Hy; apply H; right; exact Hy|intros y Hy; apply C; cbn; apply in_or_app; right; exact Hy]. cbn [length].
    assert (I : In x labels) by (apply C; cbn; apply in_or_app; left; eapply at_in; eauto). clear - N I.
    enough (X : nsum (map (fun a => if String.eqb a x then 1%nat else 0%nat) labels) = 1%nat) by lia. induction labels as [|a l IH]; [destruct I|]. inversion N; subst. cbn [map]. change (nsum (?u :: ?v)) with (u + nsum v)%nat. destruct I as [->|I].
    + rewrite String.eqb_refl. enough (Y : nsum (map (fun a => if String.eqb a x then 1%nat else 0%nat) l) = 0%nat) by lia. clear - H1. induction l as [|b l IH]; [reflexivity|]. cbn [map]. change (nsum (?u :: ?v)) with (u + nsum v)%nat.
      destruct (String.eqb_spec b x) as [->|]; [exfalso; apply H1; left; reflexivity|]. rewrite IH; [reflexivity|]. intro; apply H1; right; auto.
    + destruct (String.eqb_spec a x) as [->|]; [contradiction|]. rewrite IH; auto.
Qed.

Lemma dget_shares : forall w states a, (In a (uniq String.compare (concat states)) -> dget String.eqb (map (fun a => (a, share_of (mkTable w states) a)) (uniq String.compare (concat states))) a = Some (share_of (mkTable w states) a)) /\
  (~ In a (uniq String.compare (concat states)) -> dget String.eqb (map (fun a => (a, share_of (mkTable w states) a)) (uniq String.compare (concat states))) a = None).
Proof.
  intros w states a. generalize (uniq String.compare (concat states)). induction l as [|b l IH]; [split; [intros []|reflexivity]|]. cbn [map dget]. destruct (String.eqb_spec a b) as [->|N]; split; intro H.
  - reflexivity. - exfalso. apply H. left. reflexivity. - destruct H as [->|H]; [congruence|]. apply IH, H. - apply IH. intro; apply H; right; auto.
Qed.

Lemma probabilities_main : forall w states, boxed w states -> states <> [] -> In "away"%string (concat states) -> In "sleeping"%string (concat states) -> ~ In "active_occupancy"%string (concat states) ->
  exists dict, parse_activity_probabilities w states = Ok dict /\
    (forall a, In a (concat states) -> exists l, dget String.eqb dict a = Some l /\ length l = w /\ forall i q, at_ l i q -> q == q_of (persons_at (String.eqb a) states i) / q_of (length states))%Q /\
    (exists l, dget String.eqb dict "active_occupancy"%string = Some l /\ length l = w /\
       forall i q, at_ l i q -> q == q_of (persons_at (fun a => negb (String.eqb a "away" || String.eqb a "sleeping")) states i) / q_of (length states))%Q /\
    (forall i labels, (i < w)%nat -> NoDup labels -> (forall a, In a labels <-> In a (concat states)) ->
       total (map (fun a => match dget String.eqb dict a with Some l => nth i l 0 | None => 0 end) labels) == 1)%Q.
Proof.
  intros w states H Ne Aw Sl Na. unfold parse_activity_probabilities. set (u := uniq String.compare (concat states)). set (d := map (fun a => (a, share_of (mkTable w states) a)) u).
  assert (Inu : forall x, In x u <-> In x (concat states)) by (intro x; apply (uniq_in string_order)).
  assert (G : forall a, In a (concat states) -> dget String.eqb d a = Some (share_of (mkTable w states) a)) by (intros a Ha; apply (dget_shares w states a); apply Inu; exact Ha).
  rewrite (G _ Aw), (G _ Sl). eexists. split; [reflexivity|].
  assert (G' : forall v a, In a (concat states) -> dget String.eqb (dset String.eqb d "active_occupancy"%string v) a = Some (share_of (mkTable w states) a)).
  { intros v a Ha. rewrite (dget_dset_other _ _ _ String.eqb_eq) by (intro; subst; contradiction). apply G, Ha. }
  assert (Pn : (0 < q_nat (length states))%Q) by (apply q_nat_pos; destruct states; [congruence|cbn; lia]).
  split; [|split].
  - intros a Ha. exists (share_of (mkTable w states) a). destruct (share_of_at w states a H) as (L & V). split; [apply G'; exact Ha|]. split; [exact L|]. intros i q Hq. rewrite (V i q Hq). reflexivity.
  - eexists. split; [apply (dget_dset_same _ _ _ String.eqb_eq)|]. destruct (share_of_at w states "away" H) as (L1 & V1). destruct (share_of_at w states "sleeping" H) as (L2 & V2). split; [rewrite map2_length; lia|].
    intros i q Hq. apply at_map2 in Hq. destruct Hq as (x & y & Hx & Hy & ->). assert (Hi : (i < w)%nat) by (rewrite <- L1; apply (at_lt _ _ _ _ Hx)).
    rewrite (V1 _ _ Hx), (V2 _ _ Hy). set (A := persons_at (String.eqb "away") states i). set (S := persons_at (String.eqb "sleeping") states i).
    set (B := persons_at (fun a => negb (String.eqb a "away" || String.eqb a "sleeping")) states i).
    assert (Sum : (A + S + B = length states)%nat).
    { unfold A, S, B. rewrite <- (persons_at_compl (fun a => String.eqb a "away" || String.eqb a "sleeping") w states i H Hi). f_equal. rewrite <- persons_at_add.
      - unfold persons_at. f_equal. apply filter_ext. intro r. destruct (nth_error r i); [|reflexivity]. rewrite (String.eqb_sym "away"), (String.eqb_sym "sleeping"). reflexivity.
      - intros x' E1 E2. apply String.eqb_eq in E1, E2. congruence. }
    assert (E : (1 - q_nat A / q_nat (length states) - q_nat S / q_nat (length states) == q_nat B / q_nat (length states))%Q).
    { assert (X : (q_nat (length states) == q_nat A + q_nat S + q_nat B)%Q) by (rewrite <- Sum, !q_nat_add; reflexivity). setoid_replace (q_nat B) with (q_nat (length states) - q_nat A - q_nat S)%Q by (rewrite X; ring). field. lra. }
    assert (B0 : (0 <= q_nat B / q_nat (length states))%Q) by (apply Qle_shift_div_l; [exact Pn|]; pose proof (q_nat_nn B); lra).
    assert (B1 : (q_nat B / q_nat (length states) <= 1)%Q). { apply Qle_shift_div_r; [exact Pn|]. rewrite Qmult_1_l. unfold q_nat. rewrite <- Zle_Qle. lia. }
    unfold clip01. change (q_of B) with (q_nat B). change (q_of (length states)) with (q_nat (length states)).
    destruct (Qltb _ 0) eqn:E1; [apply Qltb_lt in E1; lra|]. destruct (Qltb 1 _) eqn:E2; [apply Qltb_lt in E2; lra|]. exact E.
  - intros i labels Hi Nl Il. rewrite (map_ext_in _ (fun a => q_nat (persons_at (String.eqb a) states i) / q_nat (length states))%Q).
    + rewrite <- (map_map (fun a => persons_at (String.eqb a) states i) (fun c => q_nat c / q_nat (length states))%Q). rewrite total_qsum, qsum_div, (persons_sum w); auto; [|intros; apply Il; assumption]. field. lra.
    + intros a Ha. apply Il in Ha. rewrite (G' _ a Ha). destruct (share_of_at w states a H) as (L & V). apply V. apply nth_error_nth'. lia.
Qed.

Lemma probabilities_missing : forall w states, ~ In "away"%string (concat states) \/ ~ In "sleeping"%string (concat states) -> parse_activity_probabilities w states = Err KeyError.
Proof.
  intros w states H. unfold parse_activity_probabilities. destruct (dget_shares w states "away") as (A1 & A2). destruct (dget_shares w states "sleeping") as (S1 & S2).
  assert (Inu : forall x, In x (uniq String.compare (concat states)) <-> In x (concat states)) by (intro x; apply (uniq_in string_order)).
  destruct H as [H|H].
  - rewrite A2 by (rewrite Inu; exact H). reflexivity.
  - rewrite S2 by (rewrite Inu; exact H). destruct (dget _ _ _); reflexivity.
Qed.
