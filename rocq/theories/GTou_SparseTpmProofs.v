(** * Proofs about states_to_sparse_tpm of the German survey. *)

From Coq Require Import String List ZArith QArith Bool Arith Lia Lqa Sorted.
From Verif Require Import Prelude PreludeFacts SpecBase SpecBaseFacts Sparse_Model Sparse_Spec Sparse_Proofs Parse_Model Parse_Spec Parse_Proofs Parse_DurProofs Parse_TpmProofs Parse_SemiProofs Appliance_Model StateMetric_Model
  Matrix_Proofs GTou_Model GTou_Spec GTou_Proofs GTou_LabelProofs.
Import ListNotations.

Definition next_of (w i : nat) (r : list nat) : nat := nth (next w i) r 0%nat.
Definition column_moves (w : nat) (st : list (list nat)) (i : nat) : list (nat * nat * nat) := map (fun r => (i, nth i r 0%nat, next_of w i r)) st.
Definition moves_list (w : nat) (st : list (list nat)) : list (nat * nat * nat) := concat (map (column_moves w st) (seq 0 w)).

Lemma roll_back_at : forall w i r, length r = w -> (i < w)%nat -> vget (roll_back r) i = Ok (next_of w i r).
Proof.
  intros w i r L Hi. apply vget_ok. unfold at_, next_of, next. destruct r as [|x t]; [cbn in L; lia|]. unfold roll_back. cbn in L. destruct (Nat.eqb_spec (S i) w) as [E|N].
  - rewrite nth_error_app2 by lia. replace (i - length t)%nat with 0%nat by lia. reflexivity.
  - rewrite nth_error_app1 by lia. cbn [nth]. apply nth_error_nth'. lia.
Qed.

Lemma all_moves_ok : forall n w st, sized n w st -> all_moves w st = Ok (moves_list w st).
Proof.
  intros n w st (_ & S). unfold all_moves, moves_list.
  enough (E : mapM (fun i => mapM (fun r => bind (vget r i) (fun a => bind (vget (roll_back r) i) (fun b => Ok (i, a, b)))) st) (seq 0 w) = Ok (map (column_moves w st) (seq 0 w))) by (rewrite E; reflexivity).
  apply mapM_map_total. intros i Hi. apply in_seq in Hi. apply mapM_map_total. intros r Hr.
  rewrite (proj2 (vget_ok _ r i (nth i r 0%nat))) by (apply nth_error_nth'; rewrite (S r Hr); lia). cbn [bind]. rewrite (roll_back_at w i r (S r Hr)) by lia. reflexivity.
Qed.

Lemma conc_one : forall A B (f : B -> bool) (F : A -> list B) i L, NoDup L -> In i L -> (forall j, In j L -> j <> i -> filter f (F j) = []) ->
  length (filter f (concat (map F L))) = length (filter f (F i)).
Proof.
  intros A B f F i. induction L as [|j L IH]; intros N I H; [destruct I|]. inversion N; subst. cbn [map concat]. rewrite filter_app, List.app_length. destruct I as [->|I].
  - enough (X : filter f (concat (map F L)) = []) by (rewrite X; cbn; lia). assert (H' : forall j, In j L -> filter f (F j) = []) by (intros j Hj; apply H; [right; exact Hj|intro; subst; contradiction]).
    clear - H'. induction L as [|j L IH]; [reflexivity|]. cbn [map concat]. rewrite filter_app, (H' j (or_introl eq_refl)), IH; [reflexivity|]. intros; apply H'; right; auto.
  - rewrite IH; auto; [|intros; apply H; auto; right; auto]. rewrite (H j (or_introl eq_refl)); [reflexivity|]. intro; subst; contradiction.
Qed.

Definition seen (st : list (list nat)) (i a : nat) : nat := length (filter (is_at i a) st).
Definition moved (w : nat) (st : list (list nat)) (i a b : nat) : nat := length (filter (fun r => is_at i a r && is_at (next w i) b r) st).

Lemma is_at_nth : forall w i a r, length r = w -> (i < w)%nat -> is_at i a r = Nat.eqb (nth i r 0%nat) a.
Proof. intros w i a r L Hi. unfold is_at. rewrite (nth_error_nth' r 0%nat) by lia. reflexivity. Qed.

Lemma next_lt : forall w i, (i < w)%nat -> (next w i < w)%nat.
Proof. intros w i H. unfold next. destruct (Nat.eqb_spec (S i) w); lia. Qed.

Section Tpm.
Variables (n w : nat) (st : list (list nat)).
Hypothesis (HS : sized n w st) (Hn : (0 < n)%nat) (Hw : (0 < w)%nat).
Let M := moves_list w st.

Lemma in_moves : forall i a b, In (i, a, b) M <-> (i < w)%nat /\ exists r, In r st /\ nth i r 0%nat = a /\ next_of w i r = b.
Proof.
  intros i a b. unfold M, moves_list. rewrite in_concat. split.
  - intros (c & Hc & H). apply in_map_iff in Hc. destruct Hc as (j & <- & Hj). apply in_seq in Hj. unfold column_moves in H. apply in_map_iff in H. destruct H as (r & [= -> <- <-] & Hr). split; [lia|]. eauto.
  - intros (Hi & r & Hr & <- & <-). exists (column_moves w st i). split; [apply in_map, in_seq; lia|]. unfold column_moves. apply in_map_iff. eauto.
Qed.

Lemma count_column : forall (f : nat * nat * nat -> bool) i, (i < w)%nat -> (forall j a b, f (j, a, b) = true -> j = i) ->
  length (filter f M) = length (filter (fun r => f (i, nth i r 0%nat, next_of w i r)) st).
Proof.
  intros f i Hi H. unfold M, moves_list. rewrite (conc_one _ _ f (column_moves w st) i).
  - unfold column_moves. clear. induction st as [|r l IH]; [reflexivity|]. cbn. destruct (f _); cbn; rewrite IH; reflexivity.
  - apply seq_NoDup.
  - apply in_seq. lia.
  - intros j _ N. unfold column_moves. clear - H N. induction st as [|r l IH]; [reflexivity|]. cbn. destruct (f (j, nth j r 0%nat, next_of w j r)) eqn:E; [|exact IH]. exfalso. apply N. eapply H; eauto.
Qed.

Lemma count_moved : forall i a b, (i < w)%nat -> count_of cmp3 (i, a, b) M = moved w st i a b.
Proof.
  intros i a b Hi. unfold count_of, moved. rewrite (count_column _ i Hi).
  - f_equal. apply filter_ext_in. intros r Hr. assert (Lr : length r = w) by (apply (proj2 HS); exact Hr). rewrite (is_at_nth w i a r Lr Hi), (is_at_nth w (next w i) b r Lr (next_lt w i Hi)).
    apply is_eq_order; [apply order3|]. rewrite andb_true_iff, !Nat.eqb_eq. unfold next_of. split; [intros (-> & ->); reflexivity|intros [= -> ->]; auto].
  - intros j a' b' E. assert (X : (i, a, b) = (j, a', b')). { apply (proj1 order3). unfold is_eq in E. destruct (cmp3 _ _); congruence. } congruence.
Qed.

Lemma count_seen : forall i a, (i < w)%nat -> count_of cmp2 (i, a) (map fst M) = seen st i a.
Proof.
  intros i a Hi. unfold count_of, seen. assert (X : forall l : list (nat * nat * nat), length (filter (is_eq cmp2 (i, a)) (map fst l)) = length (filter (fun x => is_eq cmp2 (i, a) (fst x)) l)).
  { induction l as [|x l IH]; [reflexivity|]. cbn. destruct (is_eq cmp2 (i, a) (fst x)); cbn; rewrite IH; reflexivity. }
  rewrite X, (count_column _ i Hi).
  - f_equal. apply filter_ext_in. intros r Hr. assert (Lr : length r = w) by (apply (proj2 HS); exact Hr). rewrite (is_at_nth w i a r Lr Hi). cbn [fst].
    apply is_eq_order; [apply order2|]. rewrite Nat.eqb_eq. split; [intros ->; reflexivity|intros [= ->]; auto].
  - intros j a' b' E. cbn [fst] in E. assert (Y : (i, a) = (j, a')). { apply (proj1 order2). unfold is_eq in E. destruct (cmp2 _ _); congruence. } congruence.
Qed.

Let U := uniq cmp3 M.
Let prob (k : nat * nat * nat) : Q := (q_nat (moved w st (fst (fst k)) (snd (fst k)) (snd k)) / q_nat (seen st (fst (fst k)) (snd (fst k))))%Q.

Lemma move_probs_eq : move_probs M = map (fun k => (k, prob k)) U.
Proof.
  unfold move_probs, uniq_counts. rewrite map_map. apply map_ext_in. intros [[i a] b] Hk. cbn [fst snd]. f_equal. unfold prob. cbn [fst snd].
  assert (I : In (i, a, b) M) by (apply (uniq_in order3); exact Hk). apply in_moves in I. destruct I as (Hi & _). rewrite count_moved, count_seen by exact Hi. reflexivity.
Qed.

Hypothesis Hw16 : (Z.of_nat w <= 65536)%Z.
Hypothesis Hs16 : forall p i x, diary st p i x -> (Z.of_nat x < 65536)%Z.

Let E3 (k : nat * nat * nat) : entry := mkE (Z.of_nat (fst (fst k))) (Z.of_nat (snd (fst k))) (Z.of_nat (snd k)) (prob k).

Lemma nth_diary : forall i r, In r st -> (i < w)%nat -> exists p, diary st p i (nth i r 0%nat).
Proof. intros i r Hr Hi. pose proof (proj2 HS r Hr) as L. apply in_at in Hr. destruct Hr as (p & Hp). exists p, r. split; [exact Hp|]. apply nth_error_nth'. lia. Qed.

Lemma U_small : forall k, In k U -> (fst (fst k) < w)%nat /\ (exists p i, diary st p i (snd (fst k))) /\ (exists p i, diary st p i (snd k)).
Proof.
  intros [[i a] b] Hk. unfold U in Hk. rewrite (uniq_in order3) in Hk. apply in_moves in Hk. destruct Hk as (Hi & r & Hr & <- & <-). cbn [fst snd]. split; [exact Hi|]. split.
  - destruct (nth_diary i r Hr Hi) as (p & D). eauto.
  - destruct (nth_diary (next w i) r Hr (next_lt w i Hi)) as (p & D). unfold next_of. eauto.
Qed.

Lemma u16_id : forall x, (0 <= x < 65536)%Z -> u16 x = x.
Proof. intros. unfold u16. apply Z.mod_small. assumption. Qed.

Lemma zmax_ge : forall l d x, In x l \/ x = d -> (x <= zmax d l)%Z.
Proof. induction l as [|y l IH]; intros d x H; cbn; [destruct H as [[]|]; lia|]. destruct H as [[->|H]|H]; [lia| |]; pose proof (IH d x); [specialize (H0 (or_introl H))|specialize (H0 (or_intror H))]; lia. Qed.
Lemma zmax_in : forall l d, In (zmax d l) (d :: l).
Proof. induction l as [|y l IH]; intro d; cbn; [auto|]. destruct (Z.max_spec y (zmax d l)) as [[_ E]|[_ E]]; rewrite E; [|auto]. destruct (IH d) as [H|H]; [left; exact H|auto]. Qed.
Lemma list_max_Z_spec : forall l, l <> [] -> In (list_max_Z l) l /\ forall x, In x l -> (x <= list_max_Z l)%Z.
Proof.
  intros [|d l] N; [congruence|]. unfold list_max_Z. split; [apply zmax_in|]. intros x [->|H]; apply zmax_ge; auto.
Qed.

Lemma zip4_map : forall (ks : list (nat * nat * nat)), (forall k, In k ks -> In k U) ->
  Sparse_Model.zip4 (map u16 (map (fun k => Z.of_nat (fst (fst k))) ks)) (map u16 (map (fun k => Z.of_nat (snd (fst k))) ks)) (map u16 (map (fun k => Z.of_nat (snd k)) ks)) (map prob ks) = map E3 ks.
Proof.
  induction ks as [|k ks IH]; intro H; [reflexivity|]. cbn [map Sparse_Model.zip4]. rewrite IH by (intros; apply H; right; auto). f_equal. unfold E3.
  destruct (U_small k (H k (or_introl eq_refl))) as (H1 & (p & i & D) & (p' & i' & D')). pose proof (Hs16 _ _ _ D). pose proof (Hs16 _ _ _ D'). rewrite !u16_id by lia. reflexivity.
Qed.

Lemma sorted_strong : forall A B (cmp : A -> A -> comparison) (R : B -> B -> Prop) (f : A -> B) l, sorted cmp l -> (forall x y, In x l -> In y l -> cmp x y = Lt -> R (f x) (f y)) -> StronglySorted R (map f l).
Proof.
  intros A B cmp R f l H. induction H as [|x l Hx Hl IH]; intro HR; [constructor|]. cbn [map]. constructor.
  - apply IH. intros; apply HR; auto; right; auto.
  - apply Forall_forall. intros y Hy. apply in_map_iff in Hy. destruct Hy as (z & <- & Hz). apply HR; [left; reflexivity|right; exact Hz|apply Hx; exact Hz].
Qed.

Lemma sorted_filter : forall A (cmp : A -> A -> comparison) (f : A -> bool) l, sorted cmp l -> sorted cmp (filter f l).
Proof.
  intros A cmp f l H. induction H as [|x l Hx Hl IH]; [constructor|]. cbn. destruct (f x); [|exact IH]. constructor; [|exact IH]. intros y Hy. apply filter_In in Hy. apply Hx. tauto.
Qed.

Lemma count_partition : forall A (cmp : A -> A -> comparison), total_order cmp -> forall (P : A -> bool) keys, NoDup keys -> forall L, (forall x, In x L -> In x keys) ->
  nsum (map (fun k => count_of cmp k L) (filter P keys)) = length (filter P L).
Proof.
  intros A cmp O P keys N. induction L as [|x L IH]; intro C.
  - cbn. clear. induction (filter P keys); cbn; auto.
  - assert (E : forall k, count_of cmp k (x :: L) = ((if is_eq cmp k x then 1 else 0) + count_of cmp k L)%nat). { intro k. unfold count_of. cbn. destruct (is_eq cmp k x); reflexivity. }
    rewrite (map_ext _ _ E), nsum_map_add, IH by (intros; apply C; right; auto).
    assert (X : forall ks, NoDup ks -> nsum (map (fun k => if is_eq cmp k x then 1 else 0)%nat ks) = if existsb (is_eq cmp x) ks then 1%nat else 0%nat).
    { assert (Sy : forall a b, is_eq cmp a b = is_eq cmp b a). { intros a b. apply is_eq_order; [exact O|]. unfold is_eq. destruct (cmp b a) eqn:Eb; split; intro Y; try discriminate; try (symmetry; apply O; exact Eb); subst; rewrite (proj2 (proj1 O _ _) eq_refl) in Eb; congruence. }
      induction ks as [|k ks IHk]; intro Nk; [reflexivity|]. inversion Nk; subst. cbn [map existsb]. change (nsum (?a :: ?l)) with (a + nsum l)%nat. rewrite (IHk H2). rewrite (Sy k x). destruct (is_eq cmp x k) eqn:Ek; [|reflexivity].
      cbn [orb]. destruct (existsb (is_eq cmp x) ks) eqn:Ex; [exfalso|reflexivity]. apply existsb_exists in Ex. destruct Ex as (k' & Hk' & Ek'). unfold is_eq in Ek, Ek'.
      destruct (cmp x k) eqn:A1; try discriminate. destruct (cmp x k') eqn:A2; try discriminate. apply O in A1, A2. congruence. }
    rewrite X by (apply NoDup_filter; exact N). cbn [filter].
    assert (Rf : is_eq cmp x x = true) by (apply is_eq_order; [exact O|tauto]).
    destruct (P x) eqn:EP.
    + replace (existsb (is_eq cmp x) (filter P keys)) with true; [reflexivity|]. symmetry. apply existsb_exists. exists x. split; [apply filter_In; split; [apply C; left; reflexivity|exact EP]|exact Rf].
    + replace (existsb (is_eq cmp x) (filter P keys)) with false; [reflexivity|]. symmetry. apply not_true_is_false. intro Y. apply existsb_exists in Y. destruct Y as (k & Hk & Ek). apply filter_In in Hk.
      unfold is_eq in Ek. destruct (cmp x k) eqn:A1; try discriminate. apply O in A1. subst k. destruct Hk. congruence.
Qed.

Lemma sparse_tpm_main : exists p, states_to_sparse_tpm AlgoNothing w st = Ok p /\ n_times p = Z.of_nat w /\ parallel p /\
  (forall q i x, diary st q i x -> (Z.of_nat x < n_states p)%Z) /\ (exists q i x, diary st q i x /\ n_states p = Z.of_nat (S x)) /\
  forall i, (i < w)%nat -> ordered_by_origin p (Z.of_nat i) /\
    forall a, (forall b q, In (b, q) (row_of p (Z.of_nat i) (Z.of_nat a)) <-> exists b', b = Z.of_nat b' /\ (0 < moved w st i a b')%nat /\ q = (q_nat (moved w st i a b') / q_nat (seen st i a))%Q) /\
      StronglySorted Z.lt (map fst (row_of p (Z.of_nat i) (Z.of_nat a))) /\
      ((0 < seen st i a)%nat -> is_pdf (map snd (row_of p (Z.of_nat i) (Z.of_nat a)))) /\
      (seen st i a = 0%nat -> row_of p (Z.of_nat i) (Z.of_nat a) = []).
Proof.
  unfold states_to_sparse_tpm. rewrite (all_moves_ok n w st HS). cbn [bind]. fold M. rewrite move_probs_eq. rewrite !map_map. cbn [fst snd].
  set (ts := map (fun k => Z.of_nat (fst (fst k))) U). set (fs := map (fun k => Z.of_nat (snd (fst k))) U). set (us := map (fun k => Z.of_nat (snd k)) U). set (vs := map (fun k => prob k) U).
  assert (R0 : exists r0, In r0 st) by (destruct (lt_at _ st 0) as (r0 & Hr0); [rewrite (proj1 HS); exact Hn|exists r0; eapply at_in; eauto]). destruct R0 as (r0 & Hr0).
  assert (NU : U <> []).
  { intro E. assert (I : In (0%nat, nth 0 r0 0%nat, next_of w 0 r0) U) by (apply (uniq_in order3); apply in_moves; split; [exact Hw|exists r0; auto]). rewrite E in I. destruct I. }
  set (p := mkTpm (map u16 ts) (map u16 fs) (map u16 us) vs (Z.max (list_max_Z fs) (list_max_Z us) + 1) (list_max_Z ts + 1) None).
  assert (Ei : sp_init ts fs us vs None None None = Ok p).
  { unfold sp_init, lengths_accepted. unfold ts, fs, us, vs. rewrite !map_length. rewrite !Z.land_diag, !Z.eqb_refl. cbn [andb]. unfold p. destruct U as [|k0 U0] eqn:EU; [congruence|]. reflexivity. }
  rewrite Ei. cbn [bind]. exists p. split; [reflexivity|].
  assert (Z4 : Sparse_Model.zip4 (t_times p) (t_from p) (t_to p) (t_values p) = map E3 U) by (unfold p; cbn; apply zip4_map; auto).
  assert (Nts : ts <> []) by (unfold ts; destruct U; [congruence|discriminate]). assert (Nfs : fs <> []) by (unfold fs; destruct U; [congruence|discriminate]). assert (Nus : us <> []) by (unfold us; destruct U; [congruence|discriminate]).
  destruct (list_max_Z_spec ts Nts) as (T1 & T2). destruct (list_max_Z_spec fs Nfs) as (F1 & F2). destruct (list_max_Z_spec us Nus) as (U1 & U2).
  assert (St : forall i r, (i < w)%nat -> In r st -> In (i, nth i r 0%nat, next_of w i r) U) by (intros i r Hi Hr; apply (uniq_in order3); apply in_moves; split; [exact Hi|exists r; auto]).
  split; [|split; [|split; [|split]]].
  - unfold p. cbn [n_times]. assert (E : (list_max_Z ts = Z.of_nat (w - 1))%Z); [|lia]. apply Z.le_antisymm.
    + unfold ts in T1 at 2. apply in_map_iff in T1. destruct T1 as (k & <- & Hk). apply U_small in Hk. lia.
    + apply T2. unfold ts. apply in_map_iff. exists ((w - 1)%nat, nth (w - 1) r0 0%nat, next_of w (w - 1) r0). split; [reflexivity|]. apply St; [lia|exact Hr0].
  - unfold parallel, p. cbn. unfold ts, fs, us, vs. rewrite !map_length. auto.
  - intros q i x (r & Hr & Hx). assert (Hi : (i < w)%nat) by (rewrite <- (proj2 HS r (at_in _ _ _ _ Hr)); apply (at_lt _ _ _ _ Hx)). unfold p. cbn [n_states].
    assert (I : In (Z.of_nat x) fs). { unfold fs. apply in_map_iff. exists (i, nth i r 0%nat, next_of w i r). cbn [fst snd]. rewrite (nth_error_nth _ _ 0%nat Hx). split; [reflexivity|]. rewrite <- (nth_error_nth _ _ 0%nat Hx) at 1. apply St; [exact Hi|eapply at_in; eauto]. }
    specialize (F2 _ I). lia.
  - unfold p. cbn [n_states]. destruct (Z.max_spec (list_max_Z fs) (list_max_Z us)) as [[_ E]|[_ E]]; rewrite E.
    + unfold us in U1 at 2. apply in_map_iff in U1. destruct U1 as (k & Ek & Hk). destruct (U_small k Hk) as (_ & _ & q & i & D). exists q, i, (snd k). split; [exact D|]. lia.
    + unfold fs in F1 at 2. apply in_map_iff in F1. destruct F1 as (k & Ek & Hk). destruct (U_small k Hk) as (_ & (q & i & D) & _). exists q, i, (snd (fst k)). split; [exact D|]. lia.
  - intros i Hi.
    assert (FE : forall (P : entry -> bool) (P' : nat * nat * nat -> bool), (forall k, P (E3 k) = P' k) -> filter P (map E3 U) = map E3 (filter P' U)).
    { intros P P' H. clear - H. induction U as [|k l IH]; [reflexivity|]. cbn. rewrite H. destruct (P' k); cbn; rewrite IH; reflexivity. }
    assert (Lt3 : forall x y, cmp3 x y = Lt -> (fst (fst x) < fst (fst y))%nat \/ fst (fst x) = fst (fst y) /\ ((snd (fst x) < snd (fst y))%nat \/ snd (fst x) = snd (fst y) /\ (snd x < snd y)%nat)).
    { intros [[x1 x2] x3] [[y1 y2] y3]. unfold cmp3, cmp2, cmp_pair. cbn [fst snd]. destruct (Nat.compare_spec x1 y1); [|auto|discriminate]. destruct (Nat.compare_spec x2 y2); [|auto|discriminate]. destruct (Nat.compare_spec x3 y3); try discriminate. auto. }
    assert (SU : sorted cmp3 U) by (apply (uniq_sorted order3)).
    split.
    + unfold ordered_by_origin. rewrite Z4. rewrite (FE _ (fun k => Nat.eqb (fst (fst k)) i)).
      2:{ intros [[x1 x2] x3]. unfold E3. cbn. destruct (Nat.eqb_spec x1 i) as [->|N]; [apply Z.eqb_refl|apply Z.eqb_neq; lia]. }
      rewrite map_map. apply StronglySorted_Sorted. apply (sorted_strong _ _ cmp3); [apply sorted_filter; exact SU|]. intros x y Hx Hy L. apply filter_In in Hx, Hy. destruct Hx as (_ & Hx), Hy as (_ & Hy). apply Nat.eqb_eq in Hx, Hy.
      apply Lt3 in L. unfold E3. cbn [e_from]. lia.
    + intro a. unfold row_of. rewrite Z4. set (P := fun k : nat * nat * nat => Nat.eqb (fst (fst k)) i && Nat.eqb (snd (fst k)) a). rewrite (FE _ P).
      2:{ intros [[x1 x2] x3]. unfold E3, P. cbn. destruct (Nat.eqb_spec x1 i) as [->|N]; [rewrite Z.eqb_refl|rewrite (proj2 (Z.eqb_neq _ _)) by lia; reflexivity]. cbn [andb]. destruct (Nat.eqb_spec x2 a) as [->|N]; [apply Z.eqb_refl|apply Z.eqb_neq; lia]. }
      rewrite map_map. set (R := filter P U).
      assert (InR : forall k, In k R <-> fst (fst k) = i /\ snd (fst k) = a /\ (0 < moved w st i a (snd k))%nat).
      { intros [[x1 x2] x3]. unfold R, P. rewrite filter_In, andb_true_iff, !Nat.eqb_eq. cbn [fst snd]. unfold U. rewrite (uniq_in order3). split.
        - intros (I & -> & ->). split; [reflexivity|]. split; [reflexivity|]. rewrite <- count_moved by exact Hi. unfold count_of. assert (Y : In (i, a, x3) (filter (is_eq cmp3 (i, a, x3)) M)).
          { apply filter_In. split; [exact I|]. apply is_eq_order; [apply order3|tauto]. } destruct (filter _ M); [destruct Y|cbn; lia].
        - intros (-> & -> & H). split; [|auto]. rewrite <- count_moved in H by exact Hi. unfold count_of in H. destruct (filter (is_eq cmp3 (i, a, x3)) M) as [|y l] eqn:EF; [cbn in H; lia|].
          assert (Y : In y (filter (is_eq cmp3 (i, a, x3)) M)) by (rewrite EF; left; reflexivity). apply filter_In in Y. destruct Y as (Y1 & Y2). unfold is_eq in Y2. destruct (cmp3 _ y) eqn:EC; try discriminate. apply (proj1 order3) in EC. subst y. exact Y1. }
      split; [|split; [|split]].
      * intros b q. rewrite in_map_iff. split.
        -- intros (k & E & Hk). apply InR in Hk. destruct k as [[x1 x2] x3]. cbn [fst snd] in Hk. destruct Hk as (-> & -> & Hk). unfold E3, prob in E. cbn in E. injection E as <- <-. exists x3. auto.
        -- intros (b' & -> & H & ->). exists (i, a, b'). split; [reflexivity|]. apply InR. auto.
      * rewrite map_map. cbn [fst]. apply (sorted_strong _ _ cmp3); [apply sorted_filter; exact SU|]. intros x y Hx Hy L. fold R in Hx, Hy. apply InR in Hx, Hy. apply Lt3 in L. unfold E3. cbn. lia.
      * intro Hs. rewrite map_map. cbn [snd].
        assert (Ev : map (fun k => e_val (E3 k)) R = map (fun c => q_nat c / q_nat (seen st i a))%Q (map (fun k => count_of cmp3 k M) R)).
        { rewrite map_map. apply map_ext_in. intros k Hk. apply InR in Hk. destruct k as [[x1 x2] x3]. cbn [fst snd] in Hk. destruct Hk as (-> & -> & Hk). unfold E3, prob. cbn. rewrite count_moved by exact Hi. reflexivity. }
        rewrite Ev. pose proof (q_nat_pos _ Hs) as Ps. split.
        -- intros j x Hx. apply at_map in Hx. destruct Hx as (c & _ & ->). apply Qle_shift_div_l; [exact Ps|]. pose proof (q_nat_nn c). lra.
        -- rewrite total_qsum, qsum_div. unfold R. rewrite (count_partition _ cmp3 order3 P U (uniq_nodup order3 M) M) by (intros x Hx; apply (uniq_in order3); exact Hx).
           assert (EL : length (filter P M) = seen st i a).
           { rewrite <- count_seen by exact Hi. unfold count_of. clear. induction M as [|[[x1 x2] x3] l IH]; [reflexivity|]. cbn [map filter fst].
             replace (is_eq cmp2 (i, a) (x1, x2)) with (P (x1, x2, x3)). { destruct (P (x1, x2, x3)); cbn; rewrite IH; reflexivity. }
             symmetry. apply is_eq_order; [apply order2|]. unfold P. cbn [fst snd]. rewrite andb_true_iff, !Nat.eqb_eq. split; [intros (-> & ->); reflexivity|intros [= -> ->]; auto]. }
           rewrite EL. field. lra.
      * intro Hz. destruct R as [|k l] eqn:ER; [reflexivity|]. exfalso. assert (I : In k (k :: l)) by (left; reflexivity). apply InR in I. destruct I as (_ & _ & H). revert H Hz. unfold moved, seen. clear.
        intros H Hz. assert (X : (length (filter (fun r => is_at i a r && is_at (next w i) (snd k) r) st) <= length (filter (is_at i a) st))%nat); [|lia]. clear. induction st as [|r l IH]; [cbn; lia|]. cbn. destruct (is_at i a r); cbn; [destruct (is_at (next w i) (snd k) r); cbn; lia|exact IH].
Qed.
End Tpm.
